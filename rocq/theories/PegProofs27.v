(* Ordinary sentences are only scanned for references. *)
From Coq Require Import Lia.
From Coq Require Import ZifyBool ZifyNat ZifyN.
From Verif Require Import Unicode PyBase PyBaseFacts NumModel NumProofs DateModel DateSpec IdModel IdProofs RefModel RefSpec TreeModel SemModel GramModel GramSpec GramProofs GramProofs3 PegModel PegSpec PegSpec2 PegProofs PegProofs2 PegProofs3 PegProofs4 PegProofs5 PegProofs6 PegProofs7 PegProofs8 PegProofs10 PegProofs11 PegProofs12 PegProofs13 PegProofs14.
Local Open Scope Z_scope.

Section Text.
Variable T : pystr.
Let total := Z.of_nat (length T).
Ltac walk H :=
  lazymatch type of H with
  | p_bind ?p _ ?s = Some _ =>
      let x := fresh "x" in let t := fresh "s" in let E := fresh "E" in
      apply bind_inv in H as (x & t & E & H);
      assert (suf T t) by (let K := fresh in assert (K : takes p) by peg; eapply suf_trans; [|exact (K _ _ _ E)]; assumption);
      walk H
  | p_ret _ _ = Some _ => apply ret_inv in H as [? ?]
  | _ => idtac
  end.
Notation reads := (reads T).
Notation has := (has T).
Ltac close := first [apply closes_tok|apply closes_bind; [peg|intros ?; cbv beta; close]].
Lemma block_structural_colon : closes T (u8 ":") (g_block_amendment_structural total).
Proof.
  apply closes_rule, closes_bind; [unfold g_the_act, g_upper_or_lower_az; peg|intros a]. apply closes_map, closes_or; [apply closes_or; [apply closes_or|]|]; close.
Qed.
Hypothesis no_quote : ~ In 8222%N T.
Lemma quote_none s x r : suf T s -> g_quote_rule s = Some (x, r) -> False.
Proof.
  intros S H. apply no_quote. unfold g_quote_rule in H. destruct (length s); [discriminate|]. cbn [quote_loop] in H. unfold p_rule in H. apply bind_inv in H as (a & t & H & _).
  apply (tok_has T) in H as (u & v & ->); [|now apply suf_ws]. apply in_or_app. right. now left.
Qed.
Lemma replaced_none s x r : suf T s -> g_replaced s = Some (x, r) -> False.
Proof. intros S H. unfold g_replaced in H. walk H. eapply quote_none; [|eassumption]. assumption. Qed.
Lemma text_part_none s x r : suf T s -> g_text_amendment_part s = Some (x, r) -> False.
Proof. intros S H. unfold g_text_amendment_part, p_rule in H. apply suf_ws in S. apply bind_inv in H as (a & t & H & _). eapply replaced_none; [|eassumption]. assumption. Qed.
Lemma text_none s x r : suf T s -> g_text_amendment total s = Some (x, r) -> False.
Proof.
  intros S H. unfold g_text_amendment, p_rule in H. apply suf_ws in S. apply bind_inv in H as (a & t & E & H). assert (S1 : suf T t).
  { assert (K : takes (g_the_act total)) by (unfold g_the_act, g_upper_or_lower_az; peg). eapply suf_trans; [exact S|exact (K _ _ _ E)]. }
  walk H. apply bind_inv in E1 as (y & z & E1 & _). apply bind_inv in E1 as (y' & z' & E1 & _). eapply text_part_none; [|eassumption]. assumption.
Qed.
Lemma title_none s x r : suf T s -> g_article_title_amendment total s = Some (x, r) -> False.
Proof.
  intros S H. unfold g_article_title_amendment, p_rule in H. apply suf_ws in S. apply bind_inv in H as (a & t & E & H). assert (S1 : suf T t).
  { assert (K : takes (g_the_act total)) by (unfold g_the_act, g_upper_or_lower_az; peg). eapply suf_trans; [exact S|exact (K _ _ _ E)]. }
  apply bind_inv in H as (i & t1 & E1 & H). assert (S2 : suf T t1). { assert (K : takes (g_single_article_reference total)) by peg. eapply suf_trans; [exact S1|exact (K _ _ _ E1)]. }
  apply bind_inv in H as (j & t2 & E2 & H). assert (S3 : suf T t2). { assert (K : takes (p_rule (p_suffixed (u8 "cím")))) by peg. eapply suf_trans; [exact S2|exact (K _ _ _ E2)]. }
  apply bind_inv in H as (q & t3 & E3 & H). eapply replaced_none; [|exact E3]. exact S3.
Qed.
End Text.

Section Ordinary.
Variable T : pystr.
Let total := Z.of_nat (length T).
Hypothesis ordinary_text : ordinary T.
Ltac walk H :=
  lazymatch type of H with
  | p_bind ?p _ ?s = Some _ =>
      let x := fresh "x" in let t := fresh "s" in let E := fresh "E" in
      apply bind_inv in H as (x & t & E & H);
      assert (suf T t) by (let K := fresh in assert (K : takes p) by peg; eapply suf_trans; [|exact (K _ _ _ E)]; assumption);
      walk H
  | p_ret _ _ = Some _ => apply ret_inv in H as [? ?]
  | _ => idtac
  end.
Lemma enforcement_none s x r : suf T s -> g_enforcement_date total s = Some (x, r) -> False.
Proof.
  intros S H. unfold g_enforcement_date, p_rule in H. apply suf_ws in S. walk H. destruct ordinary_text as (_ & _ & Q & _). apply Q. eapply tok_has; [|eassumption]. assumption.
Qed.
Lemma repealed_none s x r : suf T s -> g_repealed_act total s = Some (x, r) -> False.
Proof.
  intros S H. unfold g_repealed_act in H. apply bind_inv in H as (a & t & H & _). destruct ordinary_text as (_ & _ & Q1 & Q2). apply (toks_has T) in H as (w & [<-|[<-|[]]] & u & v & E); [| |exact S].
  - apply Q1. exists (u ++ u8 "Nem "), v. rewrite E, <- app_assoc. reflexivity.
  - apply Q2. exists u, v. exact E.
Qed.
Lemma end_none {A} (p : parser A) s : (forall x r, p s = Some (x, r) -> False) -> to_the_end p s = None.
Proof. intros H. unfold to_the_end, p_bind. destruct (p s) as [[x r]|] eqn:E; [|reflexivity]. destruct (H x r eq_refl). Qed.
Lemma colon_none {A} (p : parser A) s : suf T s -> closes T (u8 ":") p -> to_the_end p s = None.
Proof. intros S P. destruct (to_the_end p s) as [[x r]|] eqn:E; [|reflexivity]. destruct ordinary_text as (Q & _). destruct Q. eapply end_colon; eauto. Qed.
Lemma ordinary_start l r : to_the_end (p_many1 (g_any_simple_expression total)) (ws T) = Some (l, r) -> g_start total T = Some (GTree GOther l, r).
Proof.
  intros H. assert (S : suf T (ws T)) by apply ws_suf. unfold g_start, p_rule.
  assert (O : forall A (p q : parser A) s x, p s = None -> q s = x -> (p <|> q) s = x) by (intros A p q s x P <-; unfold p_or; now rewrite P).
  apply O; [|unfold p_map, p_bind; now rewrite H].
  repeat (apply O).
  - now apply colon_none, block_colon.
  - now apply colon_none, block_subtitle_colon.
  - now apply colon_none, block_structural_colon.
  - apply end_none. intros x r'. apply (text_none T (proj1 (proj2 ordinary_text))), S.
  - apply end_none. intros x r'. apply (title_none T (proj1 (proj2 ordinary_text))), S.
  - apply end_none. intros x r'. now apply enforcement_none.
  - apply end_none. intros x r' E. unfold g_repeal, p_rule in E. apply bind_inv in E as (a & t & E & _). eapply repealed_none; [|exact E]. now apply suf_ws.
  - apply end_none. intros x r' E. unfold g_structural_repeal, p_rule in E. apply bind_inv in E as (a & t & E & _). eapply repealed_none; [|exact E]. now apply suf_ws.
Qed.
End Ordinary.
