From Coq Require Import Lia.
From Coq Require Import ZifyBool ZifyNat ZifyN.
From Verif Require Import Unicode PyBase PyBaseFacts NumModel NumProofs IdModel IdProofs RefModel RefSpec StructModel StructSpec TreeModel SemModel SemSpec GramModel GramSpec GramProofs GramProofs2 GramProofs3 PegModel PegSpec PegSpec2 PegSpec3 PegSpec4 PegSpec5 PegProofs PegProofs2 PegProofs3 PegProofs4 PegProofs5 PegProofs6 PegProofs7 PegProofs8 PegProofs10 PegProofs11 PegProofs12 PegProofs13 PegProofs14.
Local Open Scope Z_scope.

(** * What the grammar finds in a dull text *)

Section Text.
Variable T : pystr.
Let total := Z.of_nat (length T).
Ltac walk H :=
  lazymatch type of H with
  | p_bind ?p _ ?s = Some _ =>
      let x := fresh "x" in let t := fresh "s" in let E := fresh "E" in
      apply bind_inv in H as (x & t & E & H);
      assert (suf T t) by (let K := fresh in assert (K : takes p) by peg; eapply suf_trans; [|exact (K _ _ _ E)]; assumption);
      walk H
  | p_ret _ _ = Some _ => apply ret_inv in H as [? ?]
  | _ => idtac
  end.
Notation reads := (reads T).
Notation has := (has T).
Hypothesis Du : dull T.

Lemma dull_no a w b : In w key_words -> ~ has (a ++ w ++ b).
Proof. intros I (u & v & E). apply (Du w I). exists (u ++ a), (b ++ v). rewrite E, <- !app_assoc. reflexivity. Qed.
Ltac key := cbn; tauto.
Lemma no_bracket : ~ has (u8 ")"). Proof. apply (dull_no [] (u8 ")") []). key. Qed.
Lemma no_sign : ~ has (u8 "§"). Proof. apply (dull_no [] (u8 "§") []). key. Qed.
Lemma tok_never a w b s x r : In w key_words -> suf T s -> p_tok (a ++ w ++ b) s = Some (x, r) -> False.
Proof. intros I S H. apply (dull_no a w b I). exact (tok_has T _ _ _ _ S H). Qed.
Lemma toks_never l s x r : Forall (fun v => exists a w b, In w key_words /\ v = a ++ w ++ b) l -> suf T s -> p_toks l s = Some (x, r) -> False.
Proof. intros F S H. apply (toks_has T) in H as (v & I & V); [|exact S]. rewrite Forall_forall in F. destruct (F v I) as (a & w & b & W & ->). exact (dull_no a w b W V). Qed.

Definition never {A} (p : parser A) : Prop := forall s x r, suf T s -> p s = Some (x, r) -> False.
Lemma never_reads {A} (P : A -> Prop) p : never p -> reads P p.
Proof. intros N s x r S H. destruct (N s x r S H). Qed.
Lemma never_rule {A} (p : parser A) : never p -> never (p_rule p).
Proof. intros N s x r S H. exact (N _ _ _ (suf_ws _ _ S) H). Qed.
Lemma never_or {A} (p q : parser A) : never p -> never q -> never (p <|> q).
Proof. intros P Q s x r S H. apply or_inv in H as [H|[_ H]]; eauto. Qed.
Lemma never_map {A B} (f : A -> B) p : never p -> never (p_map f p).
Proof. intros P s x r S H. apply map_inv in H as (y & H & _). eauto. Qed.
Lemma never_first {A B} (p : parser A) (q : A -> parser B) : never p -> never (p_bind p q).
Proof. intros P s x r S H. apply bind_inv in H as (y & t & H & _). eauto. Qed.
Lemma never_next {A B} (p : parser A) (q : A -> parser B) : takes p -> (forall x, never (q x)) -> never (p_bind p q).
Proof. intros K Q s x r S H. apply bind_inv in H as (y & t & E & H). eapply Q; [|exact H]. eapply suf_trans; [exact S|exact (K _ _ _ E)]. Qed.
Lemma never_span {A} (p : parser A) : never p -> never (p_span total p).
Proof. intros P s x r S H. unfold p_span in H. destruct (p (ws s)) as [[y q]|] eqn:E; [|discriminate]. exact (P _ _ _ (suf_ws _ _ S) E). Qed.
Lemma never_many1 {A} (p : parser A) : never p -> never (p_many1 p).
Proof. intros P. now apply never_first. Qed.
Lemma never_tok a w b : In w key_words -> never (p_tok (a ++ w ++ b)).
Proof. intros I s x r S H. exact (tok_never _ _ _ _ _ _ I S H). Qed.
Lemma bracket_never : never (p_tok (u8 ")")).
Proof. exact (never_tok [] (u8 ")") [] (or_introl eq_refl)). Qed.
Lemma article_suffix_never : never g_article_suffix.
Proof.
  apply never_rule, never_or.
  - intros s x r S H. apply (suffixed_has T) in H; [|exact S]. apply (dull_no [] (u8 "§") (u8 "-")); [key|exact H].
  - apply (never_tok [] (u8 "§") []). key.
Qed.

(** * Parts *)

Definition minor_part (p : g_part) : Prop :=
  (3 <= level_of (gp_type p))%nat /\ Forall (fun x => starts_with_digit (concat (gs_id x))) (gp_singles p) /\
  Forall (fun x => starts_with_digit (concat (gg_start x)) /\ starts_with_digit (concat (gg_end x))) (gp_ranges p).
Lemma part_minor t range single suffix : takes range -> takes single -> takes suffix -> (3 <= level_of t)%nat ->
  (forall s a b r, range s = Some ((a, b), r) -> starts_with_digit (concat a) /\ starts_with_digit (concat b)) ->
  (forall s a r, single s = Some (a, r) -> starts_with_digit (concat a)) ->
  reads minor_part (g_part_rule total t range single suffix).
Proof.
  intros Kr Ks Kx L R S s p r Su H. unfold g_part_rule, p_rule in H. apply bind_inv in H as (l & s1 & Hl & H). apply bind_inv in H as (y & s2 & Y & H). apply ret_inv in H as [-> ->].
  split; [exact L|]. cbn [gp_ranges gp_singles].
  assert (F : Forall (fun x => match x with inr (i, _) => starts_with_digit (concat i) | inl ((i, j), _) => starts_with_digit (concat i) /\ starts_with_digit (concat j) end) l).
  { revert Hl. apply (reads_many1 T).
    - apply takes_bind; [|intros; peg]. apply takes_or; apply takes_map, takes_span; assumption.
    - intros s' x r' _ E. apply bind_inv in E as (z & t1 & E & E'). apply bind_inv in E' as (u & t2 & _ & E'). apply ret_inv in E' as [-> ->].
      apply or_inv in E as [E|[_ E]]; apply map_inv in E as ([i sp] & E & ->); unfold p_span in E.
      + destruct (range (ws s')) as [[[j k] q]|] eqn:J; [|discriminate]. injection E as <- _ _. eauto.
      + destruct (single (ws s')) as [[j q]|] eqn:J; [|discriminate]. injection E as <- _ _. eauto.
    - now apply suf_ws. }
  clear -F. split; (induction F as [|x l X F IH]; [constructor|]; cbn [flat_map]; apply Forall_app; split; [|exact IH]; destruct x as [[[i j] sp]|[i sp]]; repeat constructor; apply X).
Qed.
Lemma part_never t range single suffix : never range -> never single -> never (g_part_rule total t range single suffix).
Proof. intros R S. apply never_rule, never_first, never_many1, never_first, never_or; apply never_map, never_span; assumption. Qed.
Lemma article_never : never (g_article_reference total).
Proof.
  apply never_rule. apply never_next; [|intros; apply never_first, article_suffix_never].
  apply takes_many1, takes_bind; [|intros; peg]. apply takes_or; apply takes_map, takes_span; peg.
Qed.
Ltac bracketed := repeat first [apply never_first, bracket_never|apply never_next; [peg|intros]].
Lemma paragraph_never : never (g_paragraph_reference total).
Proof. apply part_never; bracketed. Qed.
Lemma alphabetic_point_never : never (g_alphabetic_point_reference total).
Proof. apply part_never; bracketed. Qed.
Lemma alphabetic_subpoint_never : never (g_alphabetic_subpoint_reference total).
Proof. apply part_never; bracketed. Qed.
Lemma number_digit s n r l : g_number s = Some (n, r) -> starts_with_digit (n ++ l).
Proof. intros H. apply number_spells in H as [_ [N F]]. destruct n as [|c n]; [contradiction|]. exists c, (n ++ l). apply Forall_cons_iff in F as [F _]. auto. Qed.
Lemma numeric_point_digit s x r : g_numeric_point_id s = Some (x, r) -> starts_with_digit (concat x).
Proof. intros H. unfold g_numeric_point_id, p_rule in H. apply bind_inv in H as (n & s1 & Hn & H). apply bind_inv in H as (l & s2 & _ & H). apply ret_inv in H as [-> _]. exact (number_digit _ _ _ _ Hn). Qed.
Lemma numeric_subpoint_digit s x r : g_numeric_subpoint_id s = Some (x, r) -> starts_with_digit (concat x).
Proof. intros H. unfold g_numeric_subpoint_id, p_rule in H. apply map_inv in H as (n & Hn & ->). exact (number_digit _ _ _ _ Hn). Qed.
Lemma numeric_point_minor : reads minor_part (g_numeric_point_reference total).
Proof.
  apply part_minor; [peg..|cbn; lia| |].
  - intros s a b r H. apply bind_inv in H as (x & s1 & X & H). apply bind_inv in H as (d & s2 & _ & H). apply bind_inv in H as (y & s3 & Y & H). apply bind_inv in H as (e & s4 & _ & H). apply ret_inv in H as [E _].
    injection E as -> ->. split; eapply numeric_point_digit; eassumption.
  - intros s a r H. apply bind_inv in H as (x & s1 & X & H). apply bind_inv in H as (e & s4 & _ & H). apply ret_inv in H as [-> _]. eapply numeric_point_digit; eassumption.
Qed.
Lemma numeric_subpoint_minor : reads minor_part (g_numeric_subpoint_reference total).
Proof.
  apply part_minor; [peg..|cbn; lia| |].
  - intros s a b r H. apply bind_inv in H as (x & s1 & X & H). apply bind_inv in H as (d & s2 & _ & H). apply bind_inv in H as (y & s3 & Y & H). apply bind_inv in H as (e & s4 & _ & H). apply ret_inv in H as [E _].
    injection E as -> ->. split; eapply numeric_subpoint_digit; eassumption.
  - intros s a r H. apply bind_inv in H as (x & s1 & X & H). apply bind_inv in H as (e & s4 & _ & H). apply ret_inv in H as [-> _]. eapply numeric_subpoint_digit; eassumption.
Qed.
Lemma any_point_minor : reads minor_part (g_any_point total).
Proof. apply reads_or; [apply never_reads, alphabetic_point_never|apply numeric_point_minor]. Qed.
Lemma any_subpoint_minor : reads minor_part (g_any_subpoint total).
Proof. apply reads_or; [apply never_reads, alphabetic_subpoint_never|apply numeric_subpoint_minor]. Qed.

(** * References *)

Definition minor_ref (r : g_reference) : Prop := Forall minor_part (gr_parts r).
Lemma minor_one p : reads minor_part p -> reads (Forall minor_part) (p_map (fun x => [x]) p).
Proof. intros P s x r S H. apply map_inv in H as (y & H & ->). constructor; [eauto|constructor]. Qed.
Lemma minor_cons p q : takes p -> reads minor_part p -> reads (Forall minor_part) q -> reads (Forall minor_part) (x <~ p ;; l <~ p_opt q ;; p_ret (x :: parts_of l)).
Proof.
  intros K P Q s l r S H. apply bind_inv in H as (x & s1 & E & H). apply bind_inv in H as (o & s2 & E' & H). apply ret_inv in H as [-> ->]. pose proof (K _ _ _ E) as K'.
  constructor; [eauto|]. apply opt_inv in E' as [(y & -> & E')|(-> & _)]; [|constructor]. cbn. eapply Q; [|exact E']. eapply suf_trans; eauto.
Qed.
Lemma reference_of_minor p : reads (Forall minor_part) p -> reads minor_ref (reference_of total p).
Proof.
  intros P s x r S H. apply map_inv in H as ([l sp] & H & ->). unfold p_span in H. destruct (p (ws s)) as [[y q]|] eqn:E; [|discriminate]. injection H as <- _ _.
  unfold minor_ref. cbn. eapply P; [|exact E]. now apply suf_ws.
Qed.
Lemma reference_minor : reads minor_ref (g_reference_rule total).
Proof.
  apply reference_of_minor. repeat apply reads_or.
  - apply never_reads, never_first, article_never.
  - apply never_reads, never_first, article_never.
  - apply never_reads, never_first, paragraph_never.
  - apply minor_cons; [peg|apply any_point_minor|apply minor_one, any_subpoint_minor].
  - apply minor_one, any_subpoint_minor.
Qed.
Lemma listed_minor : reads minor_ref (g_listed_reference total).
Proof. intros s x r S H. unfold g_listed_reference in H. walk H. subst. eapply reference_minor; [|eassumption]. exact S. Qed.
Lemma many_minor : reads (Forall minor_ref) (p_many (g_listed_reference total)).
Proof. apply reads_many; [peg|apply listed_minor]. Qed.
Lemma az_article_never : never (g_az_article total).
Proof. apply never_next; [peg|]. intros _. apply article_never. Qed.
Lemma insertion_minor : reads minor_ref (g_insertion_reference total).
Proof.
  pose proof (takes_az_article T) as K. fold total in K. assert (K' : takes (g_article_and_paragraph total (g_az_article total))) by (unfold g_article_and_paragraph, one_part; peg).
  assert (Ko : takes (one_part (g_az_article total))) by (unfold one_part; peg).
  apply reference_of_minor. repeat apply reads_or.
  - apply never_reads, never_next; [peg|intros _]. apply never_first, article_never.
  - apply never_reads. apply never_next; [peg|intros]. apply never_next; [peg|intros]. apply never_first, paragraph_never.
  - intros s l r S H. walk H. subst. apply Forall_app. split; [|constructor; [eapply any_point_minor; [|eassumption]; assumption|constructor]].
    apply opt_inv in E as [(y & -> & E)|(-> & _)]; [|constructor]. cbn [parts_of].
    apply or_inv in E as [E|[_ E]]; [apply or_inv in E as [E|[_ E]]|].
    + exfalso. revert E. apply never_first; [exact az_article_never|exact S].
    + apply map_inv in E as (z & _ & ->). constructor.
    + apply map_inv in E as (z & _ & ->). constructor.
  - apply never_reads, never_first. apply never_first, az_article_never.
Qed.
Lemma subtitle_minor : reads (fun r => gr_parts r = []) (g_reference_with_subtitle total).
Proof.
  intros s x r S H. apply map_inv in H as ([l sp] & H & ->). unfold p_span in H. match type of H with match ?e with _ => _ end = _ => destruct e as [[y q]|] eqn:E; [|discriminate] end. injection H as <- _ _.
  apply suf_ws in S. cbn [gr_parts fst]. apply or_inv in E as [E|[_ E]]; [apply or_inv in E as [E|[_ E]]|].
  - exfalso. revert E. apply never_next; [peg|intros _|exact S]. apply never_next; [peg|intros _]. apply never_map, article_never.
  - exfalso. revert E. apply never_first; [exact article_never|exact S].
  - apply map_inv in E as (z & _ & ->). reflexivity.
Qed.

(** * Acts *)

Definition plain_act (a : g_act_ref) : Prop := ga_from_now_on a = None.
Lemma from_now_on_never : never g_from_now_on.
Proof. apply never_rule. bracketed. Qed.
Lemma act_plain : reads plain_act (g_act_reference total).
Proof.
  apply reads_rule, reads_or; intros s x r S H.
  - apply bind_inv in H as ([i sp] & s1 & _ & H). apply ret_inv in H as [-> ->]. reflexivity.
  - apply bind_inv in H as (i & s1 & A & H). apply bind_inv in H as (f & s2 & E & H). apply ret_inv in H as [-> ->]. unfold plain_act. cbn [ga_from_now_on].
    assert (S1 : suf T s1) by (eapply suf_trans; [exact S|]; revert A; apply takes_ends; peg).
    apply opt_inv in E as [(y & -> & E)|(-> & _)]; [|reflexivity]. apply or_inv in E as [E|[_ E]]; apply map_inv in E as (z & E & ->); [|reflexivity].
    destruct (from_now_on_never _ _ _ S1 E).
Qed.
Lemma the_act_plain : reads plain_act (g_the_act total).
Proof. intros s x r S H. unfold g_the_act, g_upper_or_lower_az in H. walk H. eapply act_plain; [|exact H]. assumption. Qed.

(** * Nodes *)

Definition away (s : g_structural) : Prop := match s with GAfterArticle _ | GBeforeArticle _ => False | _ => True end.
Definition minor_node (n : g_node) : Prop :=
  match n with
  | GCompoundReference _ l => Forall minor_ref l
  | GActReference a => plain_act a
  | GBlockAmendment _ None (Some r) => minor_ref r
  | GBlockAmendmentWithSubtitle _ s None (Some r) => (forall x, s = Some x -> away x) /\ gr_parts r = []
  | GBlockAmendmentStructural _ None (Some s) => away s
  | GOther => True
  | _ => False
  end.
Definition minor_tree (t : g_tree) : Prop := Forall minor_node (post_order t).
Lemma with_act_minor (n : g_act_ref -> g_node) a : plain_act a -> minor_node (n a) -> minor_tree (node_with_act n a).
Proof. intros A N. unfold minor_tree, node_with_act. cbn. constructor; [exact A|]. constructor; [exact N|constructor]. Qed.
Lemma compound_minor : reads minor_tree (g_compound_reference total).
Proof.
  apply reads_rule, reads_or; intros s x r S H; walk H; subst; unfold minor_tree; cbn [post_order flat_map app].
  - constructor; [eapply act_plain; [|exact E]; exact S|]. constructor; [|constructor]. eapply many_minor; [|exact E0]. assumption.
  - constructor; [|constructor]. constructor; [|constructor]. eapply reference_minor; [|exact E]. exact S.
Qed.
Lemma other_minor {A} (p : parser A) : reads minor_tree (p_map (fun _ => GTree GOther []) p).
Proof. intros s x r S H. apply map_inv in H as (y & _ & ->). repeat constructor. Qed.
Lemma simple_minor : reads minor_tree (g_any_simple_expression total).
Proof. apply reads_rule, reads_or; [apply reads_or; [apply reads_or|]|]; try apply other_minor. apply compound_minor. Qed.
Lemma amendment_suffix_never : never g_amendment_suffix.
Proof. apply never_rule, never_or; [apply never_first; apply (never_tok [] (u8 "hely") (u8 "ébe a következő")); key|apply (never_tok (u8 "a következő szöveggel lép ") (u8 "hatály") (u8 "ba")); key]. Qed.
Lemma amendment_subtitle_never : never g_amendment_suffix_with_subtitle.
Proof. apply never_rule, never_first. apply (never_tok [] (u8 "hely") (u8 "ébe a következő")); key. Qed.
Lemma amendment_structural_never : never g_amendment_suffix_with_structural.
Proof. apply never_rule, never_first. apply (never_tok [] (u8 "hely") (u8 "ébe a következő")); key. Qed.
Lemma any_away : reads away (g_subtitle_number <|> g_subtitle_title <|> g_chapter_number <|> g_part_number <|> g_title_number).
Proof.
  intros s x r S H. repeat (apply or_inv in H as [H|[_ H]]); unfold g_subtitle_number, g_subtitle_title, g_chapter_number, g_part_number, g_title_number, p_rule in H.
  - repeat (apply bind_inv in H as (? & ? & _ & H)). apply ret_inv in H as [-> _]. exact Logic.I.
  - apply bind_inv in H as (y & s1 & Y & H). repeat (apply bind_inv in H as (? & ? & _ & H)). apply ret_inv in H as [-> _].
    apply or_inv in Y as [Y|[_ Y]]; apply map_inv in Y as (z & _ & ->); exact Logic.I.
  - repeat (apply bind_inv in H as (? & ? & _ & H)). apply ret_inv in H as [-> _]. exact Logic.I.
  - repeat (apply bind_inv in H as (? & ? & _ & H)). apply ret_inv in H as [-> _]. exact Logic.I.
  - repeat (apply bind_inv in H as (? & ? & _ & H)). apply ret_inv in H as [-> _]. exact Logic.I.
Qed.
Lemma after_article_never : never g_after_article.
Proof. apply never_rule. do 3 (apply never_next; [peg|intros]). apply never_first, article_suffix_never. Qed.
Lemma before_article_never : never g_before_article.
Proof. apply never_rule. do 3 (apply never_next; [peg|intros]). apply never_first, article_suffix_never. Qed.
Lemma position_away : reads away g_structural_position.
Proof.
  apply reads_or; [apply reads_or|apply any_away]; apply never_reads, never_next; try peg; intros _; [apply after_article_never|apply before_article_never].
Qed.
Lemma any_rule_away : reads away g_any_structural_reference.
Proof. apply reads_rule, any_away. Qed.
Lemma title_insertion_away : reads away g_title_insertion_with_book.
Proof. apply reads_rule. intros s x r S H. do 6 (apply bind_inv in H as (? & ? & _ & H)). apply ret_inv in H as [-> _]. exact Logic.I. Qed.
Ltac pairs := repeat match goal with E : (_, _) = (_, _) |- _ => injection E as ? ? end; subst.
Lemma block_minor : reads minor_tree (g_block_amendment total).
Proof.
  apply reads_rule. intros s x r S H. walk H. apply the_act_plain in E; [|exact S]. apply map_inv in H as ([am ins] & H & ->). cbn [fst snd]. apply with_act_minor; [exact E|].
  apply or_inv in H as [H|[_ H]]; [apply or_inv in H as [H|[_ H]]|]; walk H; pairs.
  - exfalso. eapply amendment_suffix_never; [|eassumption]. assumption.
  - cbn. eapply insertion_minor; [|eassumption]. assumption.
  - exfalso. eapply amendment_suffix_never; [|eassumption]. assumption.
Qed.
Lemma block_subtitle_minor : reads minor_tree (g_block_amendment_with_subtitle total).
Proof.
  apply reads_rule. intros s x r S H. walk H. apply the_act_plain in E; [|exact S]. apply map_inv in H as ([am ins] & H & ->). cbn [fst snd]. apply with_act_minor; [exact E|].
  apply or_inv in H as [H|[_ H]]; [apply or_inv in H as [H|[_ H]]|]; walk H; pairs.
  - exfalso. eapply amendment_suffix_never; [|eassumption]. assumption.
  - exfalso. eapply amendment_subtitle_never; [|eassumption]. assumption.
  - cbn. split; [|eapply subtitle_minor; [|eassumption]; assumption]. intros y ->. apply opt_inv in E0 as [(z & [= <-] & E0)|([=] & _)]. eapply position_away; [|exact E0]. assumption.
Qed.
Lemma block_structural_minor : reads minor_tree (g_block_amendment_structural total).
Proof.
  apply reads_rule. intros s x r S H. walk H. apply the_act_plain in E; [|exact S]. apply map_inv in H as ([am ins] & H & ->). cbn [fst snd]. apply with_act_minor; [exact E|].
  apply or_inv in H as [H|[_ H]]; [apply or_inv in H as [H|[_ H]]; [apply or_inv in H as [H|[_ H]]|]|]; walk H; pairs.
  - exfalso. eapply amendment_suffix_never; [|eassumption]. assumption.
  - exfalso. eapply amendment_structural_never; [|eassumption]. assumption.
  - cbn. eapply any_rule_away; [|eassumption]. assumption.
  - cbn. eapply title_insertion_away; [|eassumption]. assumption.
Qed.
Lemma replaced_never : never g_replaced.
Proof.
  do 3 (apply never_next; [peg|intros]). apply never_first. intros s y r S H. eapply toks_never; [|exact S|exact H].
  constructor; [exists [], (u8 "hely"), (u8 "ébe"); split; [key|reflexivity]|]. constructor; [exists [], (u8 "hely"), (u8 "ett"); split; [key|reflexivity]|constructor].
Qed.
Lemma text_never : never (g_text_amendment total).
Proof.
  apply never_rule. do 2 (apply never_next; [peg|intros]). apply never_first, never_many1, never_first, never_rule, never_first, replaced_never.
Qed.
Lemma title_never : never (g_article_title_amendment total).
Proof. apply never_rule. do 3 (apply never_next; [peg|intros]). apply never_first, replaced_never. Qed.
Lemma enters_never {A} (q : pystr -> parser A) : never (p_bind (p_tok (u8 "lép hatályba")) q).
Proof. apply never_first. apply (never_tok (u8 "lép ") (u8 "hatály") (u8 "ba")). key. Qed.
Lemma enforcement_never : never (g_enforcement_date total).
Proof. apply never_rule. do 4 (apply never_next; [peg|intros]). apply enters_never. Qed.
Lemma repealed_never : never (g_repealed_act total).
Proof.
  apply never_first. intros s y r S H. eapply toks_never; [|exact S|exact H].
  constructor; [exists (u8 "Nem lép "), (u8 "hatály"), (u8 "ba"); split; [key|reflexivity]|]. constructor; [exists [], (u8 "Hatály"), (u8 "át veszti"); split; [key|reflexivity]|constructor].
Qed.
Lemma never_end {A} (p : parser A) : never p -> never (to_the_end p).
Proof. intros P. now apply never_first. Qed.
Lemma start_minor : reads minor_tree (g_start total).
Proof.
  apply reads_rule. repeat apply reads_or.
  - apply reads_end, block_minor.
  - apply reads_end, block_subtitle_minor.
  - apply reads_end, block_structural_minor.
  - apply never_reads, never_end, text_never.
  - apply never_reads, never_end, title_never.
  - apply never_reads, never_end, enforcement_never.
  - apply never_reads, never_end, never_rule, never_first, repealed_never.
  - apply never_reads, never_end, never_rule, never_first, repealed_never.
  - intros s x r S H. apply map_inv in H as (l & H & ->). assert (F : Forall minor_tree l).
    { refine (reads_end T (Forall minor_tree) _ _ _ _ _ S H). apply reads_many1; [peg|apply simple_minor]. }
    unfold minor_tree. cbn [post_order]. apply Forall_app. split; [|repeat constructor]. clear -F. induction F as [|t l H F IH]; [constructor|]. cbn [flat_map]. apply Forall_app. now split.
Qed.
End Text.

(** * What is made of it *)

Lemma single_minor act r l : minor_ref r -> convert_single_in_text_reference act r = Ok l -> Forall (fun o => minor_reference (or_reference o)) l.
Proof.
  intros M H. apply convert_single_collects in H as (c & A & ->). pose proof (additions_real r) as Re.
  assert (F : forall x, In x (additions_of r) -> (3 <= level_of (ad_type x))%nat /\ forall i, In i (ids_of (ad_data x)) -> starts_with_digit i).
  { intros x X. unfold additions_of in X. apply in_flat_map in X as (p & P & X). unfold minor_ref in M. rewrite Forall_forall in M. destruct (M p P) as (L & S & R). rewrite Forall_forall in S, R.
    unfold additions_of_part in X. apply in_app_iff in X as [X|X]; apply in_map_iff in X as (y & <- & Y); cbn; (split; [exact L|]).
    - intros i [<-|[]]. exact (S y Y).
    - intros i [<-|[<-|[]]]; apply (R y Y). }
  apply Forall_forall. intros o Ho. destruct (collector_sound act _ c _ _ Re A o Ho) as [_ C].
  assert (N : forall k, (1 <= k < 3)%nat -> nth_part (or_reference o) k = RNone).
  { intros k K. destruct (C k) as [E|[(x & X & Lv & _)|(l1 & x & z & a & b & l2 & X & Fo & Lv & _)]]; [lia|exact E| |].
    - destruct (F x X). lia.
    - destruct (F x) as [Q _]; [rewrite X, in_app_iff; right; now left|lia]. }
  assert (D : forall k i, (1 <= k)%nat -> In i (ids_of (nth_part (or_reference o) k)) -> starts_with_digit i).
  { intros k i K I. destruct (C k K) as [E|[(x & X & Lv & E)|(l1 & x & z & a & b & l2 & X & Fo & Lv & D1 & D2 & E)]]; rewrite E in I.
    - destruct I.
    - now apply (F x X).
    - assert (X1 : In x (additions_of r)) by (rewrite X, in_app_iff; right; now left). assert (X2 : In z (additions_of r)) by (rewrite X, in_app_iff; right; right; now left).
      destruct I as [<-|[<-|[]]]; [apply (F x X1); rewrite D1; now left|apply (F z X2); rewrite D2; now left]. }
  split; [exact (N 1%nat ltac:(lia))|]. split; [exact (N 2%nat ltac:(lia))|]. intros i I. apply in_app_iff in I as [I|I]; [exact (D 3%nat i ltac:(lia) I)|exact (D 4%nat i ltac:(lia) I)].
Qed.
Lemma flat_minor act refs l : Forall minor_ref refs -> flat_mapM (convert_single_in_text_reference act) refs = Ok l -> Forall (fun o => minor_reference (or_reference o)) l.
Proof. intros M H. eapply flat_mapM_Forall; [exact H|]. rewrite Forall_forall in M. intros r out R E. exact (single_minor _ _ _ (M r R) E). Qed.
