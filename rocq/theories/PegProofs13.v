From Coq Require Import Lia.
From Coq Require Import ZifyBool ZifyNat ZifyN.
From Verif Require Import Unicode PyBase PyBaseFacts NumModel NumProofs IdModel IdProofs RefModel RefSpec StructModel StructSpec TreeModel SemModel GramModel GramSpec GramProofs GramProofs3 PegModel PegSpec PegProofs PegProofs2 PegProofs3 PegProofs4 PegProofs5 PegProofs6 PegProofs7 PegProofs8 PegProofs10 PegProofs11 PegProofs12.
Local Open Scope Z_scope.

Section Text.
Variable T : pystr.
Let total := Z.of_nat (length T).
Ltac walk H :=
  lazymatch type of H with
  | p_bind ?p _ ?s = Some _ =>
      let x := fresh "x" in let t := fresh "s" in let E := fresh "E" in
      apply bind_inv in H as (x & t & E & H);
      assert (suf T t) by (let K := fresh in assert (K : takes p) by peg; eapply suf_trans; [|exact (K _ _ _ E)]; assumption);
      walk H
  | p_ret _ _ = Some _ => apply ret_inv in H as [? ?]
  | _ => idtac
  end.
Notation reads := (reads T).

(** * Parts whose identifiers can be compared *)

Notation has := (has T).
Definition tame_part (p : g_part) : Prop := Forall (fun x => tame_id (gp_type p) (concat (gs_id x))) (gp_singles p) \/ gp_type p = PAlphabeticSubpoint /\ has (u8 "alpont").
Lemma tok_has w s x r : suf T s -> p_tok w s = Some (x, r) -> has w.
Proof. intros S H. apply tok_inv in H as (_ & E & _). apply suf_ws in S. destruct S as [u U]. exists u, r. now rewrite U, E. Qed.
Lemma toks_has l s x r : suf T s -> p_toks l s = Some (x, r) -> exists w, In w l /\ has w.
Proof. intros S H. apply toks_inv in H as (w & I & H). exists w. split; [exact I|]. eapply tok_has; eauto. Qed.
Lemma suffixed_has w s x r : suf T s -> p_suffixed w s = Some (x, r) -> has w.
Proof.
  intros [u U] H. unfold p_suffixed in H. apply re_inv in H as [_ H]. assert (H' : r_match (RLit w) (r_match (RPlus c_small) Some) s = Some r) by exact H.
  apply lit_split in H' as (t & -> & _). now exists u, t.
Qed.
Lemma part_tame t range single suffix : takes range -> takes single -> takes suffix -> (forall s a r, single s = Some (a, r) -> tame_id t (concat a)) ->
  reads tame_part (g_part_rule total t range single suffix).
Proof.
  intros Kr Ks Kx S s p r Su H. unfold g_part_rule, p_rule in H. apply bind_inv in H as (l & s1 & L & H). apply bind_inv in H as (y & s2 & Y & H). apply ret_inv in H as [-> ->].
  left. cbn [gp_type gp_singles].
  assert (F : Forall (fun x => match x with inr (i, _) => tame_id t (concat i) | inl _ => True end) l).
  { revert L. apply (reads_many1 T).
    - apply takes_bind; [|intros; peg]. apply takes_or; apply takes_map, takes_span; assumption.
    - intros s' x r' _ E. apply bind_inv in E as (z & t1 & E & E'). apply bind_inv in E' as (u & t2 & _ & E'). apply ret_inv in E' as [-> ->].
      apply or_inv in E as [E|[_ E]]; apply map_inv in E as ([i sp] & E & ->); [exact I|]. unfold p_span in E. destruct (single (ws s')) as [[j q]|] eqn:J; [|discriminate].
      injection E as <- _ _. eauto.
    - now apply suf_ws. }
  clear -F. induction F as [|x l X F IH]; [constructor|]. cbn [flat_map]. apply Forall_app. split; [|exact IH]. destruct x as [[[i j] sp]|[i sp]]; repeat constructor. exact X.
Qed.
Lemma remove_no c s : ~ In c s -> remove_chr c s = s.
Proof. apply remove_chr_notin. Qed.
Lemma small_no_slash l : maybe is_small l -> ~ In 47%N l.
Proof. intros [|c C]; [intros []|]. intros [->|[]]. unfold is_small in C. lia. Qed.
Lemma paragraph_numbered i : paragraph_shape i -> numbered i.
Proof.
  intros (n & l & -> & D & L). exists n, l. split; [|auto]. apply remove_no. rewrite in_app_iff. intros [I|I]; [revert I; apply digits_no; [exact D|lia]|revert I; now apply small_no_slash].
Qed.
Lemma numeric_point_numbered s x r : g_numeric_point_id s = Some (x, r) -> numbered (concat x).
Proof.
  intros H. pose proof H as P. apply numeric_point_reads in P as [_ P]. unfold g_numeric_point_id, p_rule in H.
  apply bind_inv in H as (n & s1 & N & H). apply bind_inv in H as (l & s2 & L & H). apply ret_inv in H as [-> ->]. apply number_spells in N as [_ D].
  assert (Hd : forall c t, concat (n :: listed l) = c :: t -> (48 <= c <= 57)%N).
  { destruct D as [N F]. destruct n as [|d n]; [contradiction|]. cbn. intros c t [= <- _]. now apply Forall_cons_iff in F as [F _]. }
  destruct P as [(c & E & C)|[E|[E|(m & sl & k & -> & D' & K & Sl & _)]]].
  - apply Hd in E. unfold is_small in C. lia.
  - apply Hd in E. lia.
  - apply Hd in E. lia.
  - exists m, k. split; [|auto]. unfold remove_chr. rewrite !filter_app. fold (remove_chr 47 m) (remove_chr 47 sl) (remove_chr 47 k).
    rewrite (remove_no 47 m) by (apply digits_no; [exact D'|lia]). rewrite (remove_no 47 k) by (now apply small_no_slash). destruct Sl as [|c <-]; reflexivity.
Qed.
Lemma article_tame : reads tame_part (g_article_reference total).
Proof. apply part_tame; [peg..|]. intros s a r H. apply bind_inv in H as (x & s1 & E & H). apply bind_inv in H as (y & s2 & _ & H). apply ret_inv in H as [-> ->]. apply article_reads in E. apply E. Qed.
Lemma paragraph_tame : reads tame_part (g_paragraph_reference total).
Proof.
  apply part_tame; [peg..|]. intros s a r H. apply bind_inv in H as (z & s0 & _ & H). apply bind_inv in H as (x & s1 & E & H). apply bind_inv in H as (y & s2 & _ & H). apply ret_inv in H as [-> ->].
  apply paragraph_reads in E. apply paragraph_numbered, E.
Qed.
Lemma alphabetic_point_tame : reads tame_part (g_alphabetic_point_reference total).
Proof. apply part_tame; [peg..|]. intros s a r H. exact I. Qed.
Lemma numeric_point_tame : reads tame_part (g_numeric_point_reference total).
Proof.
  apply part_tame; [peg..|]. intros s a r H. apply bind_inv in H as (x & s1 & E & H). apply bind_inv in H as (y & s2 & _ & H). apply ret_inv in H as [-> ->].
  exact (numeric_point_numbered _ _ _ E).
Qed.
Lemma numeric_subpoint_tame : reads tame_part (g_numeric_subpoint_reference total).
Proof. apply part_tame; [peg..|]. intros s a r H. exact I. Qed.
Lemma alphabetic_subpoint_tame : reads tame_part (g_alphabetic_subpoint_reference total).
Proof.
  intros s p r Su H. right. unfold g_alphabetic_subpoint_reference, g_part_rule, p_rule in H. apply suf_ws in Su.
  apply bind_inv in H as (l & s1 & L & H). apply bind_inv in H as (y & s2 & Y & H). apply ret_inv in H as [-> ->]. split; [reflexivity|].
  assert (S1 : suf T s1).
  { eapply suf_trans; [exact Su|]. revert L. match goal with |- ?p _ = _ -> _ => assert (K : takes p) end; [|apply K].
    apply takes_many1, takes_bind; [|intros; peg]. apply takes_or; apply takes_map, takes_span; peg. }
  unfold g_subpoint_suffix, p_rule in Y. apply suf_ws in S1. apply or_inv in Y as [Y|[_ Y]]; [now apply suffixed_has in Y|now apply tok_has in Y].
Qed.
Definition tame_reference (r : g_reference) : Prop := Forall tame_part (gr_parts r).
Lemma reads_one p : reads tame_part p -> reads (Forall tame_part) (p_map (fun x => [x]) p).
Proof. intros P s x r S H. apply map_inv in H as (y & H & ->). constructor; [eauto|constructor]. Qed.
Lemma reads_cons_opt p q : takes p -> reads tame_part p -> reads (Forall tame_part) q -> reads (Forall tame_part) (x <~ p ;; l <~ p_opt q ;; p_ret (x :: parts_of l)).
Proof.
  intros K P Q s l r S H. apply bind_inv in H as (x & s1 & E & H). apply bind_inv in H as (o & s2 & E' & H). apply ret_inv in H as [-> ->]. pose proof (K _ _ _ E) as K'.
  constructor; [eauto|]. apply opt_inv in E' as [(y & -> & E')|(-> & _)]; [|constructor]. cbn. eapply Q; [|exact E']. eapply suf_trans; eauto.
Qed.
Lemma any_point_tame : reads tame_part (g_any_point total).
Proof. apply reads_or; [apply alphabetic_point_tame|apply numeric_point_tame]. Qed.
Lemma any_subpoint_tame : reads tame_part (g_any_subpoint total).
Proof. apply reads_or; [apply alphabetic_subpoint_tame|apply numeric_subpoint_tame]. Qed.
Lemma with_subpoint_tame : reads (Forall tame_part) (ref_with_subpoint total).
Proof. apply reads_one, any_subpoint_tame. Qed.
Lemma with_point_tame : reads (Forall tame_part) (ref_with_point total).
Proof. apply reads_cons_opt; [peg|apply any_point_tame|apply with_subpoint_tame]. Qed.
Lemma with_paragraph_tame : reads (Forall tame_part) (ref_with_paragraph total).
Proof. apply reads_cons_opt; [peg|apply paragraph_tame|apply with_point_tame]. Qed.
Lemma reference_of_tame p : reads (Forall tame_part) p -> reads tame_reference (reference_of total p).
Proof.
  intros P s x r S H. apply map_inv in H as ([l sp] & H & ->). unfold p_span in H. destruct (p (ws s)) as [[y q]|] eqn:E; [|discriminate]. injection H as <- _ _.
  unfold tame_reference. cbn. eapply P; [|exact E]. now apply suf_ws.
Qed.
Lemma reference_tame : reads tame_reference (g_reference_rule total).
Proof.
  apply reference_of_tame. repeat apply reads_or.
  - intros s l r S H. unfold ref_with_article_with_paragraph in H. walk H. subst. constructor; [eapply article_tame; [|eassumption]; assumption|]. eapply with_paragraph_tame; [|eassumption]. assumption.
  - apply reads_cons_opt; [peg|apply article_tame|apply with_point_tame].
  - apply with_paragraph_tame.
  - apply with_point_tame.
  - apply with_subpoint_tame.
Qed.
Lemma listed_tame : reads tame_reference (g_listed_reference total).
Proof. intros s x r S H. unfold g_listed_reference in H. walk H. subst. eapply reference_tame; [|eassumption]. exact S. Qed.

(** * Conversions that succeed *)

Hypothesis quiet : ~ has (u8 "alpont").
Lemma part_additions p : tame_part p -> Forall (fun x => tame_item (ad_type x) (ad_data x)) (additions_of_part p).
Proof.
  intros [P|[_ P]]; [|contradiction]. unfold additions_of_part. apply Forall_app. split; apply Forall_forall; intros x X; apply in_map_iff in X as (y & <- & Y); cbn; [|exact I].
  rewrite Forall_forall in P. exact (P y Y).
Qed.
Lemma reference_fine_add act r : tame_reference r -> fine (add_all (new_collector act) (flat_map additions_of_part (gr_parts r))).
Proof.
  intros R. apply add_all_tame; [intros d; discriminate|]. unfold tame_reference in R. induction R as [|p l P R IH]; [constructor|]. cbn [flat_map]. apply Forall_app. split; [now apply part_additions|exact IH].
Qed.
Lemma single_total act r : tame_reference r -> fine (convert_single_in_text_reference act r).
Proof. intros R. unfold convert_single_in_text_reference. rewrite fill_all. destruct (reference_fine_add act r R) as [c ->]. cbn [bind]. eexists. reflexivity. Qed.
Lemma flat_mapM_total {A B} (f : A -> res (list B)) l : Forall (fun x => fine (f x)) l -> fine (flat_mapM f l).
Proof.
  induction 1 as [|x l X F IH]; [now exists []|]. cbn [flat_mapM]. destruct X as [y ->], IH as [z ->]. cbn [bind]. eexists. reflexivity.
Qed.
Lemma mapM_total {A B} (f : A -> res B) l : Forall (fun x => fine (f x)) l -> fine (mapM f l).
Proof.
  induction 1 as [|x l X F IH]; [now exists []|]. cbn [mapM]. destruct X as [y ->], IH as [z ->]. cbn [bind]. eexists. reflexivity.
Qed.
Lemma singles_total act l : Forall tame_reference l -> fine (flat_mapM (convert_single_in_text_reference act) l).
Proof. intros F. apply flat_mapM_total. revert F. apply Forall_impl. intros r. apply single_total. Qed.
Lemma multiple_loop_total l : Forall tame_reference l -> forall last, fine (convert_multiple_loop last l).
Proof.
  induction 1 as [|r l R F IH]; intros last; [now exists []|]. cbn [convert_multiple_loop]. destruct (single_total None r R) as [x ->]. cbn [bind].
  destruct (relative_chain last x) as [out last']. destruct (IH last') as [y ->]. cbn [bind]. eexists. reflexivity.
Qed.
Lemma multiple_total act l : Forall tame_reference l -> fine (convert_multiple_in_text_references act l).
Proof. intros F. now apply multiple_loop_total. Qed.
Definition named (a : g_act_ref) : Prop := fine (get_act_id a) /\ fine (get_act_id_pos a).
Lemma act_named_reads : reads named (g_act_reference total).
Proof.
  apply reads_rule, reads_or; intros s x r S H.
  - apply bind_inv in H as ([i sp] & s1 & _ & H). apply ret_inv in H as [-> ->]. split; eexists; reflexivity.
  - apply bind_inv in H as ([[y n] sp] & s1 & _ & H). apply bind_inv in H as (f & s2 & _ & H). apply ret_inv in H as [-> ->]. split; eexists; reflexivity.
Qed.
Lemma the_act_named : reads named (g_the_act total).
Proof. intros s x r S H. unfold g_the_act, g_upper_or_lower_az in H. walk H. eapply act_named_reads; [|eassumption]. assumption. Qed.
Lemma repealed_named : reads named (g_repealed_act total).
Proof. intros s x r S H. unfold g_repealed_act in H. walk H. eapply act_named_reads; [|eassumption]. assumption. Qed.
Lemma outgoing_total a i : named a -> fine (act_outgoing a i).
Proof. intros [_ [p P]]. unfold act_outgoing. rewrite P. cbn [bind]. eexists. reflexivity. Qed.
Lemma abbreviation_total a : named a -> fine (act_reference_to_abbreviation a).
Proof. intros [[i I] _]. unfold act_reference_to_abbreviation. destruct (ga_from_now_on a); [|now exists []]. rewrite I. cbn [bind]. eexists. reflexivity. Qed.
Lemma outgoings_total r : fine r -> fine (outgoings r).
Proof. intros [x ->]. eexists. reflexivity. Qed.
Lemma semantics_total r : fine r -> fine (semantics r).
Proof. intros [x ->]. eexists. reflexivity. Qed.
Lemma both_total a b : fine a -> fine b -> fine (both a b).
Proof. intros [x ->] [y ->]. eexists. reflexivity. Qed.
Lemma act_and_total a l : named a -> Forall tame_reference l -> fine (act_and_references a l).
Proof.
  intros N F. unfold act_and_references. destruct N as [[i I] P]. rewrite I. cbn [bind]. destruct (outgoing_total a i (conj (ex_intro _ i I) P)) as [o ->]. cbn [bind].
  destruct (multiple_total (Some i) l F) as [x ->]. cbn [bind]. eexists. reflexivity.
Qed.

Definition converts (n : g_node) : Prop := fine (convert_single_node n).
Definition converts_all (t : g_tree) : Prop := Forall converts (post_order t).
Lemma tree_total t : converts_all t -> fine (convert_depth_first t).
Proof. intros F. rewrite depth_first. now apply flat_mapM_total. Qed.
Lemma act_node_total a : named a -> converts (GActReference a).
Proof. intros N. unfold converts. cbn [convert_single_node]. destruct (abbreviation_total a N) as [x ->]. cbn [bind]. eexists. reflexivity. Qed.
Lemma with_act_total (n : g_act_ref -> g_node) a : named a -> converts (n a) -> converts_all (node_with_act n a).
Proof. intros A N. unfold converts_all, node_with_act. cbn. constructor; [now apply act_node_total|]. constructor; [exact N|constructor]. Qed.
Lemma many_tame : reads (Forall tame_reference) (p_many (g_listed_reference total)).
Proof. apply reads_many; [peg|apply listed_tame]. Qed.
Lemma many1_tame : reads (Forall tame_reference) (p_many1 (g_listed_reference total)).
Proof. apply reads_many1; [peg|apply listed_tame]. Qed.
Lemma compound_total : reads converts_all (g_compound_reference total).
Proof.
  apply reads_rule, reads_or; intros s x r S H; walk H; subst.
  - apply act_named_reads in E; [|exact S]. apply many_tame in E0; [|assumption]. unfold converts_all. cbn [post_order flat_map app].
    constructor; [now apply act_node_total|]. constructor; [|constructor]. apply outgoings_total. unfold compound_to_outgoing. pose proof E as [[i I] _]. rewrite I. cbn [bind].
    destruct (outgoing_total _ i E) as [o ->]. cbn [bind]. destruct (singles_total (Some i) _ E0) as [y ->]. cbn [bind]. eexists. reflexivity.
  - apply reference_tame in E; [|exact S]. unfold converts_all. cbn [post_order flat_map app]. constructor; [|constructor]. apply outgoings_total, singles_total. constructor; [exact E|constructor].
Qed.
Lemma other_total {A} (p : parser A) : reads converts_all (p_map (fun _ => GTree GOther []) p).
Proof. intros s x r S H. apply map_inv in H as (y & _ & ->). unfold converts_all. cbn [post_order flat_map app]. constructor; [now exists []|constructor]. Qed.
Lemma simple_total : reads converts_all (g_any_simple_expression total).
Proof. apply reads_rule, reads_or; [apply reads_or; [apply reads_or|]|]; try apply other_total. apply compound_total. Qed.

(** * Texts in quotes *)

Notation said := (said T).
Lemma text_total : reads converts_all (g_text_amendment total).
Proof.
  apply reads_rule. intros s x r S H. walk H. subst. apply the_act_named in E; [|exact S]. apply many1_tame in E0; [|assumption]. apply with_act_total; [exact E|].
  assert (Q : Forall (fun p => said (fst p) /\ said (snd p)) x2).
  { revert E1. apply (reads_many1 T); [unfold g_text_amendment_part, g_replaced; peg| |assumption]. intros s' p r' S' H'. apply bind_inv in H' as (y & t1 & Y & H'). apply bind_inv in H' as (z & t2 & _ & H'). apply ret_inv in H' as [-> ->].
    eapply part_said; eauto. }
  apply both_total; [apply semantics_total|apply outgoings_total; now apply act_and_total]. unfold text_to_text. destruct E as [[i I] _]. rewrite I. cbn [bind].
  destruct (multiple_total (Some i) _ E0) as [l ->]. cbn [bind]. apply flat_mapM_total, Forall_forall. intros o _. apply mapM_total. revert Q. apply Forall_impl.
  intros [q q'] [(a & A & _) (b & B & _)]. cbn [fst snd] in A, B. rewrite A. cbn [bind]. rewrite B. cbn [bind]. eexists. reflexivity.
Qed.
Lemma title_total : reads converts_all (g_article_title_amendment total).
Proof.
  assert (C : takes (p_rule (p_suffixed (u8 "cím")))) by (apply takes_rule, takes_re).
  apply reads_rule. intros s x r S H. assert (K : takes g_replaced) by (unfold g_replaced; peg). walk H. subst. apply the_act_named in E; [|exact S]. apply (replaced_said T) in E2; [|assumption].
  apply with_act_total; [exact E|]. pose proof E as [[i I] _]. destruct E2 as [(a & A & _) (b & B & _)].
  apply both_total; [apply semantics_total|apply outgoings_total].
  - unfold title_to_title. rewrite I. cbn [bind]. rewrite A. cbn [bind]. rewrite B. cbn [bind]. eexists. reflexivity.
  - unfold title_to_reference. rewrite I. cbn [bind]. destruct (outgoing_total _ i E) as [o ->]. cbn [bind]. eexists. reflexivity.
Qed.
Lemma repeal_total : reads converts_all (g_repeal total).
Proof.
  apply reads_rule. intros s x r S H. walk H. subst. apply repealed_named in E; [|exact S]. apply many1_tame in E0; [|assumption]. apply with_act_total; [exact E|].
  assert (Q : Forall said x2).
  { revert E1. apply (reads_many T); [peg| |assumption]. intros s' p r' S' H'. walk H'. subst. eapply quote_said; [|eassumption]. assumption. }
  apply both_total; [apply semantics_total|apply outgoings_total; now apply act_and_total]. unfold repeal_to_repeal. destruct E as [[i I] _]. rewrite I. cbn [bind].
  destruct (multiple_total (Some i) _ E0) as [l ->]. cbn [bind]. apply flat_mapM_total, Forall_forall. intros o _. destruct Q as [|q qs Q Qs]; [eexists; reflexivity|].
  apply mapM_total. constructor; [destruct Q as (a & A & _); rewrite A; eexists; reflexivity|]. revert Qs. apply Forall_impl. intros q' (a & A & _). rewrite A. eexists. reflexivity.
Qed.

(** * Structural positions *)

Lemma suffix_has w s x r : suf T s -> g_suffix w s = Some (x, r) -> has w.
Proof. intros S H. unfold g_suffix, p_rule in H. apply suf_ws in S. apply or_inv in H as [H|[_ H]]; [now apply suffixed_has in H|now apply tok_has in H]. Qed.
Definition plain_structural (st : g_structural) : Prop := forall i, fine (convert_structural_reference i st).
Lemma roman_total n l : PegSpec.roman_letters n -> fine (roman_to_arabic_with_postfix (n ++ l)).
Proof.
  intros [N F]. unfold roman_to_arabic_with_postfix. destruct (with_postfix_spec (n ++ l)) as (a & p & E & La & Hp & M). destruct a as [|c a].
  - exfalso. cbn [app] in E. subst p. destruct n as [|d n]; [contradiction|]. apply Forall_cons_iff in F as [F _]. now apply Hp in F.
  - destruct M as (v & _ & ->). cbn [bind]. eexists. reflexivity.
Qed.
Lemma id_roman_total s x r : g_id_with_letter g_roman s = Some (x, r) -> fine (roman_to_arabic_with_postfix (concat x)).
Proof.
  intros H. unfold g_id_with_letter in H. apply bind_inv in H as (n & s1 & N & H). apply bind_inv in H as (l & s2 & _ & H). apply ret_inv in H as [-> ->]. cbn [concat].
  apply roman_spells in N as [_ N]. now apply roman_total.
Qed.
Lemma capital_total s x r : g_hungarian_ordinal_capital s = Some (x, r) -> fine (text_to_int_hun x).
Proof.
  intros H. unfold g_hungarian_ordinal_capital, p_rule in H. apply toks_inv in H as (w & I & H). apply tok_inv in H as (-> & _).
  assert (F : Forall (fun w => fine (text_to_int_hun w)) g_capital_ordinals) by (unfold g_capital_ordinals; repeat (constructor; [eexists; vm_compute; reflexivity|]); constructor).
  rewrite Forall_forall in F. now apply F.
Qed.
Lemma book_total s b r : g_book s = Some (b, r) -> fine (convert_book_id b).
Proof.
  intros H. unfold g_book in H. apply opt_inv in H as [(y & -> & H)|(-> & _)]; [|now exists None]. apply bind_inv in H as (z & t & E & H). apply bind_inv in H as (u & t' & _ & H). apply ret_inv in H as [-> ->].
  apply capital_total in E as [n E]. cbn [convert_book_id identifier_from_string]. rewrite E. cbn [bind]. eexists. reflexivity.
Qed.
Lemma any_structural_plain : reads plain_structural (g_subtitle_number <|> g_subtitle_title <|> g_chapter_number <|> g_part_number <|> g_title_number).
Proof.
  repeat apply reads_or; apply reads_rule; intros s x r S H; walk H; subst; intros i.
  - eexists. reflexivity.
  - apply or_inv in E as [E|[_ E]]; apply map_inv in E as (y & E & ->); [|eexists; reflexivity].
    apply (quote_said T) in E as (a & A & _); [|exact S]. cbn [convert_structural_reference]. rewrite A. cbn [bind]. eexists. reflexivity.
  - cbn [convert_structural_reference identifier_from_string]. apply id_roman_total in E as [y ->]. cbn [bind]. eexists. reflexivity.
  - cbn [convert_structural_reference identifier_from_string]. apply book_total in E as [y ->]. apply capital_total in E0 as [z ->]. cbn [bind]. eexists. reflexivity.
  - cbn [convert_structural_reference identifier_from_string]. apply book_total in E as [y ->]. apply id_roman_total in E0 as [z ->]. cbn [bind]. eexists. reflexivity.
Qed.
Lemma position_plain : reads plain_structural g_structural_position.
Proof.
  apply reads_or; [apply reads_or|]; [apply reads_bind; [peg|intros _]; apply reads_rule..|apply any_structural_plain]; intros s x r S H; walk H; subst; intros i; eexists; reflexivity.
Qed.
Lemma any_rule_plain : reads plain_structural g_any_structural_reference.
Proof. apply reads_rule, any_structural_plain. Qed.
Lemma title_insertion_plain : reads plain_structural g_title_insertion_with_book.
Proof.
  apply reads_rule. intros s x r S H. walk H. subst. intros i. cbn [convert_structural_reference identifier_from_string convert_book_id]. apply capital_total in E as [y ->]. cbn [bind].
  apply id_roman_total in E2 as [z ->]. cbn [bind]. eexists. reflexivity.
Qed.
Lemma structural_repeal_total : reads converts_all (g_structural_repeal total).
Proof.
  apply reads_rule. intros s x r S H. walk H. subst. apply repealed_named in E; [|exact S]. apply position_plain in E0; [|assumption]. apply with_act_total; [exact E|].
  destruct E as [[i I] Q]. apply both_total; [apply semantics_total|apply outgoings_total].
  - unfold structural_repeal_to_repeal. rewrite I. cbn [bind]. destruct (E0 i) as [y ->]. cbn [bind]. eexists. reflexivity.
  - rewrite I. cbn [bind]. destruct (outgoing_total _ i (conj (ex_intro _ i I) Q)) as [o ->]. cbn [bind]. eexists. reflexivity.
Qed.

(** * Block amendments *)

Lemma structural_block_total : reads converts_all (g_block_amendment_structural total).
Proof.
  apply reads_rule. intros s x r S H. walk H. apply the_act_named in E; [|exact S]. apply map_inv in H as ([am ins] & H & ->). apply with_act_total; [exact E|]. destruct E as [[i I] _]. cbn [fst snd].
  apply semantics_total. unfold structural_to_block. rewrite I. cbn [bind].
  apply or_inv in H as [H|[_ H]]; [apply or_inv in H as [H|[_ H]]; [apply or_inv in H as [H|[_ H]]|]|]; walk H;
    repeat match goal with E : (_, _) = (_, _) |- _ => injection E as ? ? end; subst.
  - apply any_rule_plain in E; [|assumption]. destruct (E i) as [y ->]. eexists. reflexivity.
  - apply any_rule_plain in E; [|assumption]. destruct (E i) as [y ->]. eexists. reflexivity.
  - apply any_rule_plain in E0; [|assumption]. destruct (E0 i) as [y ->]. eexists. reflexivity.
  - apply title_insertion_plain in E; [|assumption]. destruct (E i) as [y ->]. eexists. reflexivity.
Qed.
Lemma article_paragraph_tame p : takes p -> reads tame_part p -> reads (Forall tame_part) (g_article_and_paragraph total p).
Proof. intros K P. unfold g_article_and_paragraph. apply reads_cons_opt; [exact K|exact P|apply reads_one, paragraph_tame]. Qed.
Lemma az_article_tame : reads tame_part (g_az_article total).
Proof. intros s x r S H. unfold g_az_article in H. walk H. eapply article_tame; [|exact H]. assumption. Qed.
Lemma takes_az_article : takes (g_az_article total).
Proof. unfold g_az_article. peg. Qed.
Lemma opt_parts_tame p s o r : reads (Forall tame_part) p -> suf T s -> p_opt p s = Some (o, r) -> Forall tame_part (parts_of o).
Proof. intros P S H. apply opt_inv in H as [(y & -> & H)|(-> & _)]; [|constructor]. eapply P; eauto. Qed.
Lemma nothing_tame {A} (p : parser A) : reads (Forall tame_part) (p_map (fun _ => []) p).
Proof. intros s x r S H. apply map_inv in H as (y & _ & ->). constructor. Qed.
Lemma insertion_tame : reads tame_reference (g_insertion_reference total).
Proof.
  pose proof takes_az_article as K. assert (K' : takes (g_article_and_paragraph total (g_az_article total))) by (unfold g_article_and_paragraph, one_part; peg).
  assert (Ko : takes (one_part (g_az_article total))) by (unfold one_part; peg).
  apply reference_of_tame. repeat apply reads_or.
  - apply reads_bind; [peg|intros _]. apply article_paragraph_tame; [peg|apply article_tame].
  - intros s l r S H. walk H. subst. apply Forall_app. split; [|constructor; [eapply paragraph_tame; [|eassumption]; assumption|constructor]].
    eapply opt_parts_tame; [|exact S|eassumption]. apply reads_or; [apply reads_one, az_article_tame|apply nothing_tame].
  - intros s l r S H. walk H. subst. apply Forall_app. split; [|constructor; [eapply any_point_tame; [|eassumption]; assumption|constructor]].
    eapply opt_parts_tame; [|exact S|eassumption]. apply reads_or; [apply reads_or|]; [apply article_paragraph_tame; [exact K|apply az_article_tame]|apply nothing_tame..].
  - intros s l r S H. walk H. subst. apply Forall_app. split; [eapply article_paragraph_tame; [exact K|apply az_article_tame|exact S|eassumption]|].
    constructor; [eapply any_point_tame; [|eassumption]; assumption|]. constructor; [eapply any_subpoint_tame; [|eassumption]; assumption|constructor].
Qed.
Lemma potential_total act r : tame_reference r -> fine (convert_potential_in_text_reference act (Some r)).
Proof. intros R. cbn [convert_potential_in_text_reference]. destruct (single_total (Some act) r R) as [l ->]. cbn [bind]. destruct l as [|o [|o' l]]; eexists; reflexivity. Qed.
Lemma block_one_total a am ins : named a -> (forall r, am = Some r -> tame_reference r) -> (forall r, ins = Some r -> tame_reference r) -> am = None \/ ins = None -> converts (GBlockAmendment a am ins).
Proof.
  intros N A B O. pose proof N as [[i I] _].
  assert (Pa : fine (convert_potential_in_text_reference i am)) by (destruct am as [r|]; [apply potential_total; auto|now exists None]).
  assert (Pb : fine (convert_potential_in_text_reference i ins)) by (destruct ins as [r|]; [apply potential_total; auto|now exists None]).
  destruct Pa as [x X], Pb as [y Y]. apply both_total; [apply outgoings_total|apply semantics_total].
  - unfold block_to_outgoing. rewrite I. cbn [bind]. destruct (outgoing_total a i N) as [o ->]. cbn [bind]. rewrite X. cbn [bind]. rewrite Y. cbn [bind]. eexists. reflexivity.
  - unfold block_to_block, convert_potential_reference. rewrite I. cbn [bind]. rewrite X. cbn [bind]. rewrite Y. cbn [bind].
    destruct O as [->| ->]; [injection X as <-; destruct y|injection Y as <-; destruct x]; eexists; reflexivity.
Qed.
Definition amends : Prop := has (u8 "helyébe a következő") \/ has (u8 "a következő szöveggel lép hatályba").
Definition inserts : Prop := has (u8 "egészül ki") \/ has (u8 "kiegészülve lép hatályba").
Lemma amends_says s x r : suf T s -> g_amendment_suffix s = Some (x, r) -> amends.
Proof.
  intros S H. unfold g_amendment_suffix, p_rule in H. apply suf_ws in S. apply or_inv in H as [H|[_ H]].
  - apply bind_inv in H as (y & t & E & _). left. now apply tok_has in E.
  - right. now apply tok_has in H.
Qed.
Lemma inserts_says s x r : suf T s -> g_insertion_suffix s = Some (x, r) -> inserts.
Proof. intros S H. unfold g_insertion_suffix, p_rule in H. apply suf_ws in S. apply toks_has in H as (w & [<-|[<-|[]]] & W); [left|right|]; assumption. Qed.
Lemma block_total : ~ (amends /\ inserts) -> reads converts_all (g_block_amendment total).
Proof.
  intros N. apply reads_rule. intros s x r S H. walk H. apply the_act_named in E; [|exact S]. apply map_inv in H as ([am ins] & H & ->). cbn [fst snd]. apply with_act_total; [exact E|].
  apply or_inv in H as [H|[_ H]]; [apply or_inv in H as [H|[_ H]]|]; walk H;
    repeat match goal with E : (_, _) = (_, _) |- _ => injection E as ? ? end; subst.
  - apply reference_tame in E1; [|assumption]. apply block_one_total; auto; [now intros r' [= <-]|discriminate].
  - apply insertion_tame in E1; [|assumption]. apply block_one_total; auto; [discriminate|now intros r' [= <-]].
  - exfalso. apply N. apply amends_says in E2; [|assumption]. apply inserts_says in E6; [|assumption]. auto.
Qed.
End Text.
