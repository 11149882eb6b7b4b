From Coq Require Import Lia.
From Coq Require Import ZifyBool ZifyNat ZifyN.
From Verif Require Import Unicode PyBase PyBaseFacts NumModel IdModel DateModel DateSpec RefModel RefSpec TreeModel SemModel GramModel GramSpec GramProofs3 PegModel PegSpec PegProofs PegProofs2 PegProofs3 PegProofs4 PegProofs5 PegProofs6 PegProofs7 PegProofs12.
Local Open Scope Z_scope.

Section Text.
Variable T : pystr.
Let total := Z.of_nat (length T).
Local Notation pos := (pos_of total).
Ltac walk H :=
  lazymatch type of H with
  | p_bind ?p _ ?s = Some _ =>
      let x := fresh "x" in let t := fresh "s" in let E := fresh "E" in
      apply bind_inv in H as (x & t & E & H);
      assert (suf T t) by (let K := fresh in assert (K : takes p) by peg; eapply suf_trans; [|exact (K _ _ _ E)]; assumption);
      walk H
  | p_ret _ _ = Some _ => apply ret_inv in H as [? ?]
  | _ => idtac
  end.

Definition reads {A} (P : A -> Prop) (p : parser A) : Prop := forall s x r, suf T s -> p s = Some (x, r) -> P x.
Lemma reads_or {A} (P : A -> Prop) p q : reads P p -> reads P q -> reads P (p <|> q).
Proof. intros R Q s x r S H. apply or_inv in H as [H|[_ H]]; eauto. Qed.
Lemma reads_rule {A} (P : A -> Prop) p : reads P p -> reads P (p_rule p).
Proof. intros R s x r S H. eapply R; [|exact H]. now apply suf_ws. Qed.
Lemma reads_rounds {A} (P : A -> Prop) p : takes p -> reads P p -> forall n s l r, suf T s -> p_rounds n p s = (l, r) -> Forall P l.
Proof.
  intros K R. induction n as [|n IH]; intros s l r S H; cbn [p_rounds] in H; [injection H as <- _; constructor|].
  destruct (p s) as [[x s']|] eqn:E; [|injection H as <- _; constructor]. destruct (p_rounds n p s') as [l' r'] eqn:Q. injection H as <- _.
  constructor; [eapply R; eauto|]. eapply IH; [|exact Q]. eapply suf_trans; [exact S|]. eapply K; eauto.
Qed.
Lemma reads_many {A} (P : A -> Prop) p : takes p -> reads P p -> reads (Forall P) (p_many p).
Proof. intros K R s l r S [= H]. eapply reads_rounds; eauto. Qed.
Lemma reads_many1 {A} (P : A -> Prop) p : takes p -> reads P p -> reads (Forall P) (p_many1 p).
Proof.
  intros K R s l r S H. unfold p_many1 in H. apply bind_inv in H as (x & s1 & E & H). apply bind_inv in H as (l' & s2 & E' & H). apply ret_inv in H as [-> ->].
  constructor; [eapply R; eauto|]. apply (reads_many P p K R) in E'; [exact E'|]. eapply suf_trans; [exact S|]. eapply K; eauto.
Qed.
Lemma reads_end {A} (P : A -> Prop) p : reads P p -> reads P (to_the_end p).
Proof.
  intros R s x r S H. unfold to_the_end in H. apply bind_inv in H as (y & s1 & E & H). apply bind_inv in H as (u & s2 & E' & H). apply ret_inv in H as [-> ->]. eauto.
Qed.

Definition opt_fine {A} (P : A -> Prop) (o : option A) : Prop := forall x, o = Some x -> P x.
Definition fine_structural (s : g_structural) : Prop :=
  match s with
  | GBeforeArticle i | GAfterArticle i => says T 1 i
  | GSubtitleTitle raw q => opt_fine (fun l => written T (squeeze (join_str (u8 " ") l))) raw /\ opt_fine (said T) q
  | GSubtitleNumber i => written T (squeeze (concat i))
  | GChapterNumber i => written T (concat i)
  | GTitleNumber b i => opt_fine (written T) b /\ written T (concat i)
  | GPartNumber b i => opt_fine (written T) b /\ written T i
  end.
Definition fine_date (d : g_date) : Prop :=
  digits (gd_year d) /\ digits (gd_day d) /\ In (gd_month d) month_names /\ written T (gd_year d ++ u8 "." ++ gd_month d ++ gd_day d).
Definition fine_after (f : g_after) : Prop := opt_fine (fun n => digits n /\ written T n) (gf_as_number f) /\ opt_fine (written T) (gf_as_text f).
Definition fine_day (d : g_day) : Prop :=
  opt_fine (written T) (gy_month d) /\ opt_fine (fun n => digits n /\ written T n) (gy_day_as_number d) /\ opt_fine (written T) (gy_day_as_text d).
Definition fine_node (n : g_node) : Prop :=
  match n with
  | GCompoundReference a refs => opt_fine (fine_act T) a /\ Forall (fine_reference T) refs
  | GActReference a => fine_act T a
  | GBlockAmendment a am ins => fine_act T a /\ opt_fine (fine_reference T) am /\ opt_fine (fine_reference T) ins
  | GBlockAmendmentWithSubtitle a st am ins => fine_act T a /\ opt_fine fine_structural st /\ opt_fine (fine_reference T) am /\ opt_fine (fine_reference T) ins
  | GBlockAmendmentStructural a am ins => fine_act T a /\ opt_fine fine_structural am /\ opt_fine fine_structural ins
  | GEnforcementDate refs exc ex af dm rep => (Forall (fine_reference T) refs /\ Forall (fine_reference T) exc) /\
      opt_fine fine_date ex /\ opt_fine fine_after af /\ opt_fine fine_day dm /\ opt_fine fine_date rep
  | GTextAmendment a refs parts => (fine_act T a /\ Forall (fine_reference T) refs) /\ Forall (fun p => said T (fst p) /\ said T (snd p)) parts
  | GArticleTitleAmendment a i sp x y => (said T x /\ said T y) /\ fine_act T a /\ says T 1 i /\ good_sp T sp
  | GSimpleRepeal a refs texts => (fine_act T a /\ Forall (fine_reference T) refs) /\ Forall (said T) texts
  | GStructuralRepeal a st => fine_act T a /\ fine_structural st
  | GOther => True
  end.
Definition fine_tree (t : g_tree) : Prop := Forall fine_node (post_order t).

Lemma listed_fine : reads (fine_reference T) (g_listed_reference total).
Proof. intros s x r S H. unfold g_listed_reference in H. walk H. subst. eapply reference_rule_fine; [|eassumption]. exact S. Qed.
Lemma many_fine : reads (Forall (fine_reference T)) (p_many (g_listed_reference total)).
Proof. apply reads_many; [peg|apply listed_fine]. Qed.
Lemma many1_fine : reads (Forall (fine_reference T)) (p_many1 (g_listed_reference total)).
Proof. apply reads_many1; [peg|apply listed_fine]. Qed.
Lemma compound_fine : reads fine_tree (g_compound_reference total).
Proof.
  apply reads_rule, reads_or; intros s x r S H; walk H; subst.
  - apply act_reference_fine in E; [|exact S]. apply many_fine in E0; [|assumption]. unfold fine_tree. cbn.
    constructor; [exact E|]. constructor; [|constructor]. split; [|exact E0]. now intros y [= <-].
  - apply reference_rule_fine in E; [|exact S]. unfold fine_tree. cbn. constructor; [|constructor]. split; [discriminate|]. now constructor.
Qed.
Lemma other_fine {A} (p : parser A) : reads fine_tree (p_map (fun _ => GTree GOther []) p).
Proof. intros s x r S H. apply map_inv in H as (y & _ & ->). unfold fine_tree. cbn. now repeat constructor. Qed.
Lemma simple_fine : reads fine_tree (g_any_simple_expression total).
Proof. apply reads_rule, reads_or; [apply reads_or; [apply reads_or|]|]; try apply other_fine. apply compound_fine. Qed.
Lemma the_act_fine : reads (fine_act T) (g_the_act total).
Proof.
  intros s x r S H. unfold g_the_act, g_upper_or_lower_az in H. walk H. eapply act_reference_fine; [|eassumption]. assumption.
Qed.
Lemma repealed_fine : reads (fine_act T) (g_repealed_act total).
Proof. intros s x r S H. unfold g_repealed_act in H. walk H. eapply act_reference_fine; [|eassumption]. assumption. Qed.
Lemma node_act_fine (n : g_act_ref -> g_node) a : fine_act T a -> fine_node (n a) -> fine_tree (node_with_act n a).
Proof. intros A N. unfold fine_tree, node_with_act. cbn. repeat (constructor; auto). Qed.
Ltac none := intros ? ?; discriminate.
Ltac some := let H := fresh in intros ? H; injection H as <-; eassumption.
Lemma after_article_fine : reads fine_structural g_after_article.
Proof. apply reads_rule. intros s x r S H. walk H. subst. eapply reads_says; [apply article_group_reads| |eassumption]. assumption. Qed.
Lemma before_article_fine : reads fine_structural g_before_article.
Proof. apply reads_rule. intros s x r S H. walk H. subst. eapply reads_says; [apply article_group_reads| |eassumption]. assumption. Qed.
Lemma reads_bind {A B} (P : B -> Prop) (p : parser A) q : takes p -> (forall x, reads P (q x)) -> reads P (p_bind p q).
Proof. intros K Q s x r S H. apply bind_inv in H as (y & t & E & H). eapply Q; [|exact H]. eapply suf_trans; [exact S|]. eapply K; eauto. Qed.
Lemma opt_none {A} (P : A -> Prop) : opt_fine P None.
Proof. intros x. discriminate. Qed.
Ltac nothing := lazymatch goal with |- opt_fine _ None => apply opt_none end.
Lemma opt_some {A} (P : A -> Prop) x : P x -> opt_fine P (Some x).
Proof. now intros H y [= <-]. Qed.
Lemma squeeze_twice s : squeeze (squeeze s) = squeeze s.
Proof. apply squeeze_solid. apply Forall_forall. intros c C. apply filter_In in C as [_ C]. now destruct (isspace_chr c). Qed.
Lemma join_squeeze l : Forall (fun x => squeeze x = x) l -> squeeze (join_str (u8 " ") l) = concat l.
Proof.
  induction 1 as [|x l X F IH]; [reflexivity|]. destruct F as [|y l Y F]; [cbn; now rewrite app_nil_r|].
  change (join_str (u8 " ") (x :: y :: l)) with (x ++ u8 " " ++ join_str (u8 " ") (y :: l)). rewrite !squeeze_app, IH, X. reflexivity.
Qed.
Lemma title_word_spelled (a b : parser pystr) : spelled (fun x => x) (p_not a ;~ p_not b ;~ g_any_token : parser pystr).
Proof.
  intros s x r H. apply bind_inv in H as (u & s1 & E & H). apply bind_inv in H as (v & s2 & E' & H). apply not_inv in E as [-> _]. apply not_inv in E' as [-> _]. now apply any_token_spelled in H.
Qed.
Lemma words_solid {A} (p : parser A) f s l r : spelled f p -> p_many p s = Some (l, r) -> Forall (fun x => squeeze (f x) = f x) l.
Proof.
  intros P. intros [= H]. revert l r H. generalize (length s) as n. intros n. revert s. induction n as [|n IH]; intros s l r H; cbn [p_rounds] in H; [injection H as <- <-; constructor|].
  destruct (p s) as [[x s']|] eqn:E; [|injection H as <- <-; constructor]. destruct (p_rounds n p s') as [l' r'] eqn:Q. injection H as <- <-. constructor; [|eapply IH; eauto].
  apply P in E as (w & _ & W). now rewrite <- W, squeeze_twice.
Qed.
Lemma flat_map_id (l : list pystr) : flat_map (fun x => x) l = concat l.
Proof. induction l as [|x l IH]; [reflexivity|]. cbn. now rewrite IH. Qed.
Lemma book_fine s b r : suf T s -> g_book s = Some (b, r) -> opt_fine (written T) b.
Proof.
  intros S H. unfold g_book in H. apply opt_inv in H as [(y & -> & H)|(-> & _)]; [|apply opt_none]. apply opt_some. apply bind_inv in H as (z & t & E & H). apply bind_inv in H as (u & t' & _ & H). apply ret_inv in H as [-> ->].
  exact (spelled_written T _ _ _ _ _ capital_spelled S E).
Qed.
Lemma quote_said : reads (said T) g_quote_rule.
Proof. intros s q r S H. eapply quote_reads; eauto. Qed.
Lemma any_structural_fine : reads fine_structural (g_subtitle_number <|> g_subtitle_title <|> g_chapter_number <|> g_part_number <|> g_title_number).
Proof.
  repeat apply reads_or; apply reads_rule; intros s x r S H; walk H; subst.
  - apply (letter_spelled _ number_spelled) in E as (w & -> & W). destruct S as [u U]. exists u, w, s0. split; [exact U|]. now rewrite <- W, squeeze_twice.
  - apply or_inv in E as [E|[_ E]]; apply map_inv in E as (y & E & ->).
    + split; [apply opt_none|]. apply opt_some. exact (quote_said _ _ _ S E).
    + split; [|apply opt_none]. apply opt_some. pose proof (title_word_spelled (p_tok (u8 "alcíme")) (p_tok (u8 "című"))) as P. pose proof (words_solid _ _ _ _ _ P E) as F. rewrite join_squeeze by exact F.
      apply (spelled_written T _ _ _ _ _ (many_spelled _ _ P) S) in E. now rewrite flat_map_id in E.
  - exact (spelled_written T _ _ _ _ _ (letter_spelled _ roman_spelled) S E).
  - split; [exact (book_fine _ _ _ S E)|]. exact (spelled_written T _ _ _ _ _ capital_spelled H0 E0).
  - split; [exact (book_fine _ _ _ S E)|]. exact (spelled_written T _ _ _ _ _ (letter_spelled _ roman_spelled) H0 E0).
Qed.
Lemma position_fine : reads fine_structural g_structural_position.
Proof.
  apply reads_or; [apply reads_or|]; [apply reads_bind; [peg|intros _; apply after_article_fine]|apply reads_bind; [peg|intros _; apply before_article_fine]|].
  apply any_structural_fine.
Qed.
Lemma any_structural_rule : reads fine_structural g_any_structural_reference.
Proof. apply reads_rule, any_structural_fine. Qed.
Lemma title_insertion_fine : reads fine_structural g_title_insertion_with_book.
Proof.
  apply reads_rule. intros s x r S H. walk H. subst. split; [apply opt_some; exact (spelled_written T _ _ _ _ _ capital_spelled S E)|].
  exact (spelled_written T _ _ _ _ _ (letter_spelled _ roman_spelled) H2 E2).
Qed.
Lemma opt_position s o r : suf T s -> p_opt g_structural_position s = Some (o, r) -> opt_fine fine_structural o.
Proof. intros S H x ->. apply opt_inv in H as [(y & [= <-] & H)|(? & _)]; [|discriminate]. eapply position_fine; eauto. Qed.
Lemma block_fine : reads fine_tree (g_block_amendment total).
Proof.
  apply reads_rule. intros s x r S H. walk H. apply the_act_fine in E; [|exact S]. apply map_inv in H as ([am ins] & H & ->). cbn [fst snd].
  apply node_act_fine; [exact E|]. split; [exact E|].
  assert (R : opt_fine (fine_reference T) am /\ opt_fine (fine_reference T) ins); [|exact R].
  apply or_inv in H as [H|[_ H]]; [apply or_inv in H as [H|[_ H]]|]; walk H;
    repeat match goal with E : (_, _) = (_, _) |- _ => injection E as ? ? end; subst.
  - apply reference_rule_fine in E1; [|assumption]. split; [some|none].
  - apply insertion_fine in E1; [|assumption]. split; [none|some].
  - apply reference_rule_fine in E1; [|assumption]. apply insertion_fine in E5; [|assumption]. split; some.
Qed.
Lemma block_subtitle_fine : reads fine_tree (g_block_amendment_with_subtitle total).
Proof.
  apply reads_rule. intros s x r S H. walk H. apply the_act_fine in E; [|exact S]. apply map_inv in H as ([am ins] & H & ->). cbn [fst snd].
  apply opt_position in E0; [|assumption]. apply node_act_fine; [exact E|]. split; [exact E|]. split; [exact E0|].
  assert (R : opt_fine (fine_reference T) am /\ opt_fine (fine_reference T) ins); [|exact R].
  apply or_inv in H as [H|[_ H]]; [apply or_inv in H as [H|[_ H]]|]; walk H;
    repeat match goal with E : (_, _) = (_, _) |- _ => injection E as ? ? end; subst.
  - apply with_subtitle_fine in E1; [|assumption]. split; [some|none].
  - apply with_subtitle_fine in E1; [|assumption]. split; [some|none].
  - apply with_subtitle_fine in E2; [|assumption]. split; [none|some].
Qed.
Lemma block_structural_fine : reads fine_tree (g_block_amendment_structural total).
Proof.
  apply reads_rule. intros s x r S H. walk H. apply the_act_fine in E; [|exact S]. apply map_inv in H as ([am ins] & H & ->).
  apply node_act_fine; [exact E|]. split; [exact E|]. cbn [fst snd].
  assert (R : opt_fine fine_structural am /\ opt_fine fine_structural ins); [|exact R].
  apply or_inv in H as [H|[_ H]]; [apply or_inv in H as [H|[_ H]]; [apply or_inv in H as [H|[_ H]]|]|]; walk H;
    repeat match goal with E : (_, _) = (_, _) |- _ => injection E as ? ? end; subst.
  - apply any_structural_rule in E0; [|assumption]. split; [some|none].
  - apply any_structural_rule in E0; [|assumption]. split; [some|none].
  - apply any_structural_rule in E1; [|assumption]. split; [none|some].
  - apply title_insertion_fine in E0; [|assumption]. split; [none|some].
Qed.
Lemma date_fine : reads fine_date g_date_rule.
Proof.
  apply reads_rule. intros s x r [u U] H. apply bind_inv in H as (y & s1 & Y & H). apply bind_inv in H as (z & s2 & Z & H). apply bind_inv in H as (m & s3 & M & H). apply bind_inv in H as (d & s4 & D & H).
  apply bind_inv in H as (e & s5 & _ & H). apply ret_inv in H as [-> ->]. unfold fine_date. cbn [gd_year gd_month gd_day].
  apply number_spells in Y as [(w1 & -> & W1) Y]. apply tok_spells in Z as (_ & w2 & -> & W2); [|reflexivity].
  assert (I : In m month_names). { unfold g_month, p_rule in M. apply toks_inv in M as (w & I & M). apply tok_inv in M as (-> & _). exact I. }
  apply month_spelled in M as (w3 & -> & W3). apply number_spells in D as [(w4 & -> & W4) D]. refine (conj Y (conj D (conj I _))).
  exists u, (w1 ++ w2 ++ w3 ++ w4), s4. split; [now rewrite U, <- !app_assoc|]. now rewrite !squeeze_app, W1, W2, W3, W4.
Qed.
Lemma ordinal_fine : reads (written T) g_hungarian_ordinal.
Proof. intros s x r S H. exact (spelled_written T _ _ _ _ _ ordinal_spelled S H). Qed.
Lemma dotted_fine : reads (fun n => digits n /\ written T n) g_number_with_dot.
Proof.
  apply reads_rule. intros s x r S H. apply bind_inv in H as (n & s1 & N & H). apply bind_inv in H as (z & s2 & _ & H). apply ret_inv in H as [-> ->].
  pose proof (spelled_written T _ _ _ _ _ number_spelled S N) as W. apply number_spells in N as [_ D]. auto.
Qed.
Lemma after_fine : reads fine_after g_after_publication.
Proof.
  assert (K : takes g_after_proclamation) by (unfold g_after_proclamation; peg). apply reads_rule. intros s x r S H. apply bind_inv in H as (u & s1 & U0 & H). apply K in U0. assert (S1 : suf T s1) by (eapply suf_trans; eauto).
  apply bind_inv in H as (o & s2 & E & H). apply bind_inv in H as (v & s3 & _ & H). apply ret_inv in H as [-> ->].
  apply opt_inv in E as [(y & -> & E)|(-> & _)]; [|split; apply opt_none].
  apply or_inv in E as [E|[_ E]]; apply map_inv in E as (z & E & ->); split; cbn [gf_as_number gf_as_text]; try nothing; apply opt_some; [eapply ordinal_fine|eapply dotted_fine]; eauto.
Qed.
Lemma day_fine : reads fine_day g_day_in_month.
Proof.
  assert (K : takes g_after_proclamation) by (unfold g_after_proclamation; peg). assert (Ko : takes g_hungarian_ordinal) by (unfold g_hungarian_ordinal; peg).
  apply reads_rule. intros s x r S H. apply bind_inv in H as (u & s1 & U0 & H). apply K in U0. assert (S1 : suf T s1) by (eapply suf_trans; eauto).
  apply bind_inv in H as (o & s2 & O & H). assert (S2 : suf T s2) by (assert (K' : takes (p_opt g_hungarian_ordinal)) by peg; eapply suf_trans; [exact S1|exact (K' _ _ _ O)]).
  apply bind_inv in H as (v & s3 & V & H). assert (S3 : suf T s3) by (assert (K' : takes (p_tok (u8 "hónap"))) by peg; eapply suf_trans; [exact S2|exact (K' _ _ _ V)]).
  apply bind_inv in H as (d & s4 & D & H). apply bind_inv in H as (w & s5 & _ & H). apply ret_inv in H as [-> ->].
  assert (M : opt_fine (written T) o). { apply opt_inv in O as [(y & -> & O)|(-> & _)]; [apply opt_some; eapply ordinal_fine; [exact S1|exact O]|apply opt_none]. }
  apply or_inv in D as [D|[_ D]]; apply map_inv in D as (z & D & ->); split; try exact M; split; cbn [gy_day_as_number gy_day_as_text]; try nothing; apply opt_some; [eapply ordinal_fine|eapply dotted_fine]; eauto.
Qed.
Lemma enforcement_fine : reads fine_tree (g_enforcement_date total).
Proof.
  apply reads_rule. intros s x r S H. walk H. destruct x3 as [[ex af] dm]. apply ret_inv in H as [-> ->]. apply many_fine in E1; [|assumption].
  unfold fine_tree. cbn. constructor; [|constructor]. split; [split; [exact E1|]|].
  - apply opt_inv in E0 as [(y & -> & E0)|(-> & _)]; [|constructor]. walk E0. subst. apply reference_rule_fine in E8; [|assumption]. repeat (constructor; auto).
  - assert (D : opt_fine fine_date ex /\ opt_fine fine_after af /\ opt_fine fine_day dm).
    { apply or_inv in E2 as [E2|[_ E2]]; [apply or_inv in E2 as [E2|[_ E2]]|]; apply map_inv in E2 as (y & E2 & D); injection D as -> -> ->.
      - refine (conj _ (conj _ _)); try nothing. apply opt_some. eapply date_fine; [|exact E2]. assumption.
      - refine (conj _ (conj _ _)); try nothing. apply opt_some. eapply after_fine; [|exact E2]. assumption.
      - refine (conj _ (conj _ _)); try nothing. apply opt_some. eapply day_fine; [|exact E2]. assumption. }
    destruct D as (D1 & D2 & D3). refine (conj D1 (conj D2 (conj D3 _))). apply opt_inv in E4 as [(y & -> & E4)|(-> & _)]; [|apply opt_none]. apply opt_some.
    unfold g_inline_repeal, p_rule in E4. assert (Sw : suf T (ws s4)) by (now apply suf_ws). walk E4. subst. eapply date_fine; [|eassumption]. assumption.
Qed.
Lemma replaced_said : reads (fun p => said T (fst p) /\ said T (snd p)) g_replaced.
Proof. intros s p r S H. unfold g_replaced in H. walk H. subst. split; (eapply quote_said; [|eassumption]); assumption. Qed.
Lemma part_said : reads (fun p => said T (fst p) /\ said T (snd p)) g_text_amendment_part.
Proof.
  apply reads_rule. intros s p r S H. apply bind_inv in H as (x & s1 & E & H). apply bind_inv in H as (y & s2 & _ & H). apply ret_inv in H as [-> ->].
  eapply replaced_said; eauto.
Qed.
Lemma parts_said s l r : suf T s -> p_many1 (x <~ g_text_amendment_part ;; g_separator ;~ p_ret x) s = Some (l, r) -> Forall (fun p => said T (fst p) /\ said T (snd p)) l.
Proof.
  apply reads_many1; [peg|]. intros s' p r' S' H'. apply bind_inv in H' as (y & t1 & Y & H'). apply bind_inv in H' as (z & t2 & _ & H'). apply ret_inv in H' as [-> ->]. eapply part_said; eauto.
Qed.
Lemma texts_said s l r : suf T s -> p_many (p_opt g_az ;~ q <~ g_quote_rule ;; p_opt (p_tok (u8 "szövegrész")) ;~ g_separator ;~ p_ret q) s = Some (l, r) -> Forall (said T) l.
Proof. apply reads_many; [peg|]. intros s' p r' S' H'. walk H'. subst. eapply quote_said; [|eassumption]. assumption. Qed.
Lemma text_fine : reads fine_tree (g_text_amendment total).
Proof.
  apply reads_rule. intros s x r S H. walk H. subst. apply the_act_fine in E; [|exact S]. apply many1_fine in E0; [|assumption]. apply parts_said in E1; [|assumption]. apply node_act_fine; [exact E|]. exact (conj (conj E E0) E1).
Qed.
Lemma title_fine : reads fine_tree (g_article_title_amendment total).
Proof.
  assert (C : takes (p_rule (p_suffixed (u8 "cím")))) by (apply takes_rule, takes_re).
  apply reads_rule. intros s x r S H. walk H. subst. apply the_act_fine in E; [|exact S]. apply replaced_said in E2; [|assumption]. apply node_act_fine; [exact E|]. split; [exact E2|]. split; [exact E|].
  destruct x1 as [i sp]. cbn [fst snd]. unfold g_single_article_reference in E0. apply span_good in E0 as (E0 & -> & (G1 & G2 & G3 & G4 & G5)); [|assumption|peg].
  split; [|split; auto]. assert (Sw : suf T (ws s0)) by (now apply suf_ws). walk E0. subst. eapply reads_says; [apply article_group_reads|exact Sw|eassumption].
Qed.
Lemma repeal_fine : reads fine_tree (g_repeal total).
Proof.
  apply reads_rule. intros s x r S H. walk H. subst. apply repealed_fine in E; [|exact S]. apply many1_fine in E0; [|assumption]. apply texts_said in E1; [|assumption]. apply node_act_fine; [exact E|]. exact (conj (conj E E0) E1).
Qed.
Lemma structural_repeal_fine : reads fine_tree (g_structural_repeal total).
Proof. apply reads_rule. intros s x r S H. walk H. subst. apply repealed_fine in E; [|exact S]. apply position_fine in E0; [|assumption]. now apply node_act_fine. Qed.
Lemma start_fine : reads fine_tree (g_start total).
Proof.
  apply reads_rule. repeat apply reads_or; try apply reads_end.
  - apply block_fine.
  - apply block_subtitle_fine.
  - apply block_structural_fine.
  - apply text_fine.
  - apply title_fine.
  - apply enforcement_fine.
  - apply repeal_fine.
  - apply structural_repeal_fine.
  - intros s x r S H. apply map_inv in H as (l & H & ->). assert (F : Forall fine_tree l).
    { revert s l r S H. apply reads_end, reads_many1; [peg|apply simple_fine]. }
    unfold fine_tree. cbn. apply Forall_app. split; [|now repeat constructor]. clear H. induction F as [|t l Ft F IH]; [constructor|]. cbn. apply Forall_app. auto.
Qed.
End Text.
Theorem parse_fine s t : grammar_parse s = Some t -> fine_tree s t.
Proof.
  unfold grammar_parse. destruct (g_start _ s) as [[t' r]|] eqn:E; [|discriminate]. intros [= <-]. eapply (start_fine s); [apply suf_refl|exact E].
Qed.
