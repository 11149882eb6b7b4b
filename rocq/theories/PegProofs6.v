From Coq Require Import Lia.
From Coq Require Import ZifyBool ZifyNat ZifyN.
From Verif Require Import Unicode PyBase PyBaseFacts NumModel IdModel RefModel RefSpec TreeModel SemModel GramModel GramSpec PegModel PegSpec PegProofs PegProofs2 PegProofs3 PegProofs4 PegProofs18 PegProofs5.
Local Open Scope Z_scope.

Section Text.
Variable T : pystr.
Let total := Z.of_nat (length T).
Local Notation pos := (pos_of total).

Lemma says_at level p s x r : reads_id level p -> suf T s -> p s = Some (x, r) -> says T level x.
Proof. apply reads_says. Qed.
(* follow a sequence, keeping what is left as a suffix of the text *)
Ltac walk H :=
  lazymatch type of H with
  | p_bind ?p _ ?s = Some _ =>
      let x := fresh "x" in let t := fresh "s" in let E := fresh "E" in
      apply bind_inv in H as (x & t & E & H);
      assert (suf T t) by (let K := fresh in assert (K : takes p) by peg; eapply suf_trans; [|exact (K _ _ _ E)]; assumption);
      walk H
  | p_ret _ _ = Some _ => apply ret_inv in H as [? ?]
  | _ => idtac
  end.

Ltac read R :=
  let S' := fresh "S" in let H' := fresh "H" in intros ? ? ?; intros; 
  match goal with H : p_bind _ _ _ = Some _ |- _ => walk H end;
  repeat match goal with E : (_, _) = (_, _) |- _ => injection E as ? ? end; subst;
  (split; [split; (eapply says_at; [apply R| |eassumption]; eassumption)|] || idtac); try (eapply says_at; [apply R| |eassumption]; eassumption).
Ltac dash L := match goal with D : g_dash ?t = Some (_, ?r), E : _ ?r = Some _ |- _ => eapply (dash_before_other T t); [assumption|exact D|eapply L; exact E] end.
Lemma article_part s p r : suf T s -> g_article_reference total s = Some (p, r) -> fine_part T (pos s) (pos r) p /\ gp_type p = PArticle.
Proof. intros S H. eapply part_fine; try exact H; try exact S; [read article_reads; dash article_next|read article_reads|peg..]. Qed.
Lemma paragraph_part s p r : suf T s -> g_paragraph_reference total s = Some (p, r) -> fine_part T (pos s) (pos r) p /\ gp_type p = PParagraph.
Proof. intros S H. eapply part_fine; try exact H; try exact S; [read paragraph_reads; match goal with D : g_dash ?t = Some (_, ?r), E : p_tok (u8 "(") ?r = Some _ |- _ => eapply (dash_before_other T t); [assumption|exact D|eapply (tok_next _ 40 []); [exact E|reflexivity|unfold is_small; lia]] end|read paragraph_reads|peg..]. Qed.
Ltac alpha_dash :=
  match goal with D : g_dash ?t = Some _, E : p_opt (p_tok _) ?r0 = Some (_, ?t), I : g_alphabetic_point_id _ = Some (_, ?r0) |- _ =>
    eapply (dash_after_other T t); [|exact D]; apply opt_inv in E as [(? & _ & E)|(_ & -> & _)];
      [eapply (after_tok T (u8 ")") 41 [] r0); [assumption|reflexivity|discriminate|exact E]|eapply alphabetic_point_after; [|exact I]; assumption] end.
Lemma alphabetic_point_part s p r : suf T s -> g_alphabetic_point_reference total s = Some (p, r) -> fine_part T (pos s) (pos r) p /\ gp_type p = PAlphabeticPoint.
Proof. intros S H. eapply part_fine; try exact H; try exact S; [read alphabetic_point_reads; alpha_dash|read alphabetic_point_reads|peg..]. Qed.
Lemma numeric_point_part s p r : suf T s -> g_numeric_point_reference total s = Some (p, r) -> fine_part T (pos s) (pos r) p /\ gp_type p = PNumericPoint.
Proof. intros S H. eapply part_fine; try exact H; try exact S; [read numeric_point_reads; dash numeric_point_next|read numeric_point_reads|peg..]. Qed.
Lemma alphabetic_subpoint_part s p r : suf T s -> g_alphabetic_subpoint_reference total s = Some (p, r) -> fine_part T (pos s) (pos r) p /\ gp_type p = PAlphabeticSubpoint.
Proof. intros S H. eapply part_fine; try exact H; try exact S; [read alphabetic_subpoint_reads; match goal with D : g_dash ?t = Some _, E : p_tok (u8 ")") ?r0 = Some (_, ?t) |- _ => eapply (dash_after_other T t); [eapply (after_tok T (u8 ")") 41 [] r0); [assumption|reflexivity|discriminate|exact E]|exact D] end|read alphabetic_subpoint_reads|peg..]. Qed.
Lemma numeric_subpoint_part s p r : suf T s -> g_numeric_subpoint_reference total s = Some (p, r) -> fine_part T (pos s) (pos r) p /\ gp_type p = PNumericSubpoint.
Proof. intros S H. eapply part_fine; try exact H; try exact S; [read numeric_subpoint_reads; dash numeric_subpoint_next|read numeric_subpoint_reads|peg..]. Qed.

(** * References *)

Lemma fine_wider a b a' b' p : a' <= a -> b <= b' -> fine_part T a b p -> fine_part T a' b' p.
Proof.
  intros A B [F1 F2 F3 [F4 F5]]. split; auto; [|split; [exact F4|revert F5; apply Forall_impl; lia]].
  revert F1. apply Forall_impl. intros x ((I1 & I2 & I3) & X). split; [|exact X]. unfold inside. lia.
Qed.
(* parts one after another, of levels between [k] and [K], larger units first *)
Inductive row (K : nat) : nat -> Z -> Z -> list g_part -> Prop :=
| rw_nil k a b : a <= b -> (k <= K)%nat -> row K k a b []
| rw_cons k a b c p l : (k < level_of (gp_type p) <= K)%nat -> fine_part T a c p -> a <= c -> row K (level_of (gp_type p)) c b l -> row K k a b (p :: l).
Lemma row_order K k a b l : row K k a b l -> a <= b /\ (k <= K)%nat.
Proof. induction 1; lia. Qed.
Lemma row_before K k k' a a' b l : a' <= a -> (k' <= k)%nat -> row K k a b l -> row K k' a' b l.
Proof.
  intros A B H. destruct H as [? ? ? H1 H2|? ? ? ? ? ? H1 H2 H3 H4]; [constructor; lia|].
  econstructor; [| |(idtac)|exact H4]; [lia| |lia]. eapply fine_wider; [exact A| |exact H2]. lia.
Qed.
Lemma row_app K k a b l : row K k a b l -> forall K' c m, row K' K b c m -> row K' k a c (l ++ m).
Proof.
  induction 1 as [k a b H1 H2|k a b c p l H1 H2 H3 H4 IH]; intros K' d m M.
  - cbn. eapply row_before; [| |exact M]; lia.
  - cbn. pose proof (row_order _ _ _ _ _ M). econstructor; [|exact H2|exact H3|apply IH; exact M]. lia.
Qed.
Lemma row_after K K' k a b b' l : b <= b' -> (K <= K')%nat -> row K k a b l -> row K' k a b' l.
Proof. intros A B H. rewrite <- (app_nil_r l). eapply row_app; [exact H|]. constructor; lia. Qed.
Definition well_read (x : addition) : Prop := starts_at T (ad_start x) /\ ends_at T (ad_end x) /\ ids_said T (level_of (ad_type x)) x.
Lemma row_laid K k a b l : row K k a b l -> laid_out a b (flat_map additions_of_part l) /\ Forall well_read (flat_map additions_of_part l) /\
  Forall (fun x => (k < level_of (ad_type x))%nat) (flat_map additions_of_part l).
Proof.
  assert (Ty : forall p x, In x (additions_of_part p) -> ad_type x = gp_type p).
  { intros p x Hx. unfold additions_of_part in Hx. apply in_app_iff in Hx as [Hx|Hx]; apply in_map_iff in Hx as (y & <- & _); reflexivity. }
  induction 1 as [k a b H1 H2|k a b c p l H1 H2 H3 H4 IH]; [repeat split; constructor|]. cbn [flat_map]. destruct IH as ([I1 I2] & I3 & I4).
  destruct H2 as [F1 F2 F3 _]. pose proof (row_order _ _ _ _ _ H4) as [cb _].
  repeat split.
  - apply Forall_app. split; [revert F1|revert I1]; apply Forall_impl; unfold inside; intros x X; [|lia]. destruct X as [X _]. lia.
  - clear -F1 F2 I1 I2 I4 Ty. assert (C : Forall (fun x => Forall (ranked x) (flat_map additions_of_part l)) (additions_of_part p)).
    { apply Forall_forall. intros x Hx. apply Forall_forall. intros y Hy. rewrite Forall_forall in F1, I1, I4. destruct (F1 x Hx) as [X _]. specialize (I1 y Hy). specialize (I4 y Hy). cbn in I4.
      rewrite <- (Ty p x Hx) in I4. unfold ranked, inside in *. repeat split; [lia|lia|]. intros. lia. }
    revert F2 C. generalize (additions_of_part p). intros m F2 C. induction F2 as [|x m F G IHm]; [exact I2|]. cbn [app].
    apply Forall_cons_iff in C as [C1 C2]. constructor; [apply Forall_app; auto|auto].
  - apply Forall_app. split; [|exact I3]. apply Forall_forall. intros x Hx. rewrite Forall_forall in F1, F3. destruct (F1 x Hx) as (_ & X1 & X2).
    split; [exact X1|]. split; [exact X2|]. rewrite (Ty p x Hx). now apply F3.
  - apply Forall_app. split; [|revert I4; apply Forall_impl; lia]. apply Forall_forall. intros x Hx. rewrite (Ty p x Hx). lia.
Qed.

Lemma row_ends K k a b l : row K k a b l -> NoDup (map ad_end (flat_map additions_of_part l)) /\ Forall (fun x => a < ad_end x < b) (flat_map additions_of_part l).
Proof.
  induction 1 as [k a b H1 H2|k a b c p l H1 H2 H3 H4 [IH1 IH2]]; [split; constructor|]. cbn [flat_map]. rewrite map_app.
  pose proof (row_order _ _ _ _ _ H4) as [cb _]. destruct H2 as [F1 _ _ [F4 F5]]. split.
  - assert (D : forall x, In x (map ad_end (additions_of_part p)) -> ~ In x (map ad_end (flat_map additions_of_part l))).
    { intros x X Y. apply in_map_iff in X as (u & <- & X), Y as (v & E & Y). rewrite Forall_forall in F5, IH2. specialize (F5 u X). specialize (IH2 v Y). lia. }
    revert F4 D. generalize (map ad_end (additions_of_part p)). intros m F4 D. induction F4 as [|x m N F IHm]; [exact IH1|]. cbn [app]. constructor.
    + rewrite in_app_iff. intros [X|X]; [contradiction|]. eapply D; [now left|exact X].
    + apply IHm. intros y Y. apply D. now right.
  - apply Forall_app. split; [|revert IH2; apply Forall_impl; lia]. apply Forall_forall. intros x X. rewrite Forall_forall in F1, F5.
    destruct (F1 x X) as [(I1 & I2 & I3) _]. specialize (F5 x X). lia.
Qed.

Record fine_reference (r : g_reference) : Prop := {
  fr_start : starts_at T (fst (gr_span r));
  fr_end : ends_at T (snd (gr_span r));
  fr_less : fst (gr_span r) < snd (gr_span r);
  fr_laid : laid_out (fst (gr_span r)) (snd (gr_span r)) (additions_of r);
  fr_read : Forall well_read (additions_of r);
  fr_ends : NoDup (map ad_end (additions_of r)) /\ Forall (fun x => fst (gr_span r) < ad_end x < snd (gr_span r)) (additions_of r) }.
Definition rows (k K : nat) (p : parser (list g_part)) : Prop := forall s l r, suf T s -> p s = Some (l, r) -> row K k (pos s) (pos r) l.
Lemma suf_ws s : suf T s -> suf T (ws s).
Proof. intros S. eapply suf_trans; [exact S|apply ws_suf]. Qed.
Lemma reference_fine k K p : rows k K p -> ends p -> forall s x r, suf T s -> reference_of total p s = Some (x, r) -> fine_reference x.
Proof.
  intros P E s x r S H. apply map_inv in H as ([l sp] & H & ->). apply span_good in H as (H & -> & (G1 & G2 & G3 & G4 & G5)); [|exact S|exact E].
  apply P in H; [|now apply suf_ws]. destruct (row_laid _ _ _ _ _ H) as (L1 & L2 & _). pose proof (row_ends _ _ _ _ _ H). split; auto.
Qed.

Lemma rows_or k K p q : rows k K p -> rows k K q -> rows k K (p <|> q).
Proof. intros P Q s l r S H. apply or_inv in H as [H|[_ H]]; eauto. Qed.
Lemma rows_wider k K k' K' p : (k' <= k)%nat -> (K <= K')%nat -> rows k K p -> rows k' K' p.
Proof. intros A B P s l r S H. apply P in H; [|exact S]. eapply row_before; [| |eapply row_after; [| |exact H]]; lia. Qed.
Definition part_at (n : nat) (p : parser g_part) : Prop := forall s x r, suf T s -> p s = Some (x, r) -> fine_part T (pos s) (pos r) x /\ level_of (gp_type x) = n.
Lemma part_or n p q : part_at n p -> part_at n q -> part_at n (p <|> q).
Proof. intros P Q s x r S H. apply or_inv in H as [H|[_ H]]; eauto. Qed.
Lemma rows_part n p : part_at (S n) p -> takes p -> rows n (S n) (one_part p).
Proof.
  intros P K s l r S H. apply map_inv in H as (x & H & ->). pose proof (pos_mono T _ _ (K _ _ _ H)) as M. destruct (P _ _ _ S H) as [F E].
  econstructor; [rewrite E; lia|exact F|exact M|]. constructor; lia.
Qed.
Lemma rows_cons n K p (q : parser (list g_part)) : part_at (S n) p -> takes p -> takes q -> rows (S n) K q -> rows n K (x <~ p ;; l <~ q ;; p_ret (x :: l)).
Proof.
  intros P Tk Tq Q s l r S H. walk H. subst l r. pose proof (pos_mono T _ _ (Tk _ _ _ E)) as M. destruct (P _ _ _ S E) as [F L].
  apply Q in E0; [|assumption]. pose proof (row_order _ _ _ _ _ E0). econstructor; [rewrite L; lia|exact F|exact M|]. rewrite L. exact E0.
Qed.
Lemma rows_cons_opt n K p (q : parser (list g_part)) : part_at (S n) p -> takes p -> takes q -> rows (S n) K q -> (S n <= K)%nat ->
  rows n K (x <~ p ;; l <~ p_opt q ;; p_ret (x :: parts_of l)).
Proof.
  intros P Tk Tq Q L s l r S H. walk H. subst l r. pose proof (pos_mono T _ _ (Tk _ _ _ E)) as M. destruct (P _ _ _ S E) as [F Lv].
  apply opt_inv in E0 as [(y & -> & E0)|(-> & -> & _)]; cbn [parts_of].
  - apply Q in E0; [|assumption]. econstructor; [rewrite Lv; lia|exact F|exact M|]. now rewrite Lv.
  - econstructor; [rewrite Lv; lia|exact F|exact M|]. constructor; lia.
Qed.
Lemma at_article : part_at 1 (g_article_reference total).
Proof. intros s x r S H. apply article_part in H as [F ->]; auto. Qed.
Lemma at_paragraph : part_at 2 (g_paragraph_reference total).
Proof. intros s x r S H. apply paragraph_part in H as [F ->]; auto. Qed.
Lemma at_point : part_at 3 (g_any_point total).
Proof. apply part_or; intros s x r S H; [apply alphabetic_point_part in H as [F ->]|apply numeric_point_part in H as [F ->]]; auto. Qed.
Lemma at_subpoint : part_at 4 (g_any_subpoint total).
Proof. apply part_or; intros s x r S H; [apply alphabetic_subpoint_part in H as [F ->]|apply numeric_subpoint_part in H as [F ->]]; auto. Qed.
Lemma at_az_article : part_at 1 (g_az_article total).
Proof.
  intros s x r S H. unfold g_az_article in H. pose proof S as S0. apply bind_inv in H as (y & t & E & H). assert (K : takes (p_opt g_az)) by peg. apply K in E.
  apply at_article in H as [F L]; [|eapply suf_trans; eauto]. split; [|exact L]. eapply fine_wider; [|reflexivity|exact F]. now apply pos_mono.
Qed.
Lemma rows_subpoint : rows 3 4 (ref_with_subpoint total).
Proof. apply rows_part; [apply at_subpoint|peg]. Qed.
Lemma rows_point : rows 2 4 (ref_with_point total).
Proof. apply rows_cons_opt; [apply at_point|peg|peg|apply rows_subpoint|lia]. Qed.
Lemma rows_paragraph : rows 1 4 (ref_with_paragraph total).
Proof. apply rows_cons_opt; [apply at_paragraph|peg|peg|apply rows_point|lia]. Qed.
Lemma reference_rule_fine s x r : suf T s -> g_reference_rule total s = Some (x, r) -> fine_reference x.
Proof.
  apply (reference_fine 0 4); [|peg]. repeat apply rows_or.
  - apply rows_cons; [apply at_article|peg|peg|apply rows_paragraph].
  - apply rows_cons_opt; [apply at_article|peg|peg| |lia]. eapply rows_wider; [| |apply rows_point]; lia.
  - eapply rows_wider; [| |apply rows_paragraph]; lia.
  - eapply rows_wider; [| |apply rows_point]; lia.
  - eapply rows_wider; [| |apply rows_subpoint]; lia.
Qed.
Lemma rows_bind {A} k K (p : parser A) q : takes p -> (forall x, rows k K (q x)) -> rows k K (p_bind p q).
Proof.
  intros P Q s l r S H. apply bind_inv in H as (x & t & E & H). apply P in E. apply Q in H; [|eapply suf_trans; eauto].
  eapply row_before; [|reflexivity|exact H]. now apply pos_mono.
Qed.
Lemma rows_article_and_paragraph p : part_at 1 p -> takes p -> rows 0 2 (g_article_and_paragraph total p).
Proof.
  intros P K. apply rows_cons_opt; [exact P|exact K|unfold one_part; peg| |lia]. apply rows_part; [apply at_paragraph|peg].
Qed.
Lemma rows_none k K {A} (p : parser A) : takes p -> (k <= K)%nat -> rows k K (p_map (fun _ => []) p).
Proof. intros P L s l r S H. apply map_inv in H as (x & H & ->). apply P, pos_mono with (T := T) in H. now constructor. Qed.
Lemma rows_opt_snoc k n (p : parser (list g_part)) {A} (q : parser A) w : rows k n p -> (k <= n)%nat -> takes p -> takes q -> part_at (S n) w -> takes w ->
  rows k (S n) (a <~ p_opt p ;; q ;~ x <~ w ;; p_ret (parts_of a ++ [x])).
Proof.
  intros P L Tp Tq W Tw s l r Su H. walk H. subst l r. apply W in E1 as W'; [|assumption]. destruct W' as [F Lv].
  apply Tw, pos_mono with (T := T) in E1. apply Tq, pos_mono with (T := T) in E0.
  assert (R : row (S n) n (pos s1) (pos s2) [x1]) by (econstructor; [rewrite Lv; lia|exact F|exact E1|constructor; lia]).
  apply row_before with (a' := pos s0) (k' := n) in R; [|exact E0|lia].
  apply opt_inv in E as [(y & -> & E)|(-> & -> & _)]; cbn [parts_of].
  - apply P in E; [|exact Su]. eapply row_app; eauto.
  - cbn [app]. eapply row_before; [reflexivity|exact L|exact R].
Qed.
Lemma insertion_fine s x r : suf T s -> g_insertion_reference total s = Some (x, r) -> fine_reference x.
Proof.
  apply (reference_fine 0 4).
  - pose proof (takes_ends _ (ends_article_and_paragraph total _ (ends_article_reference total))) as A1.
    pose proof (takes_ends _ (ends_article_and_paragraph total _ (ends_az_article total))) as A2.
    pose proof (takes_ends _ (ends_one_part _ (ends_az_article total))) as A3.
    repeat apply rows_or.
    + apply rows_bind; [peg|]. intros _. eapply rows_wider; [| |apply rows_article_and_paragraph; [apply at_article|peg]]; lia.
    + eapply rows_wider; [| |apply (rows_opt_snoc 0 1)]; [lia|lia| |lia|peg|peg|apply at_paragraph|peg].
      apply rows_or; [apply rows_part; [apply at_az_article|peg]|apply rows_none; [peg|lia]].
    + eapply rows_wider; [| |apply (rows_opt_snoc 0 2)]; [lia|lia| |lia|peg|peg|apply at_point|peg].
      apply rows_or; [apply rows_or|]; [apply rows_article_and_paragraph; [apply at_az_article|peg]|apply rows_none; [peg|lia]..].
    + intros s' l r' S' H. walk H. subst l r'. apply (rows_article_and_paragraph _ at_az_article ltac:(peg)) in E; [|exact S'].
      eapply row_app; [exact E|]. pose proof (at_point s0 _ _ ltac:(assumption) E0) as [F1 L1]. pose proof (at_subpoint s2 _ _ ltac:(assumption) E2) as [F2 L2].
      assert (K : takes (g_any_point total)) by peg. apply K, pos_mono with (T := T) in E0. assert (K' : takes g_insertion_token) by peg. apply K', pos_mono with (T := T) in E1.
      assert (K2 : takes (g_any_subpoint total)) by peg. apply K2, pos_mono with (T := T) in E2.
      econstructor; [rewrite L1; lia|exact F1|exact E0|]. rewrite L1. econstructor; [rewrite L2; lia| | |].
      * eapply fine_wider; [exact E1|reflexivity|exact F2].
      * exact (Z.le_trans _ _ _ E1 E2).
      * constructor; lia.
  - pose proof (ends_article_and_paragraph total _ (ends_article_reference total)) as A.
    pose proof (ends_article_and_paragraph total _ (ends_az_article total)) as B. unfold one_part. peg.
Qed.
Lemma with_subtitle_fine s x r : suf T s -> g_reference_with_subtitle total s = Some (x, r) -> fine_reference x.
Proof.
  apply (reference_fine 0 1); [|unfold one_part; peg]. pose proof (rows_part 0 _ at_article ltac:(peg)) as A. repeat apply rows_or.
  - apply rows_bind; [peg|]. intros _. apply rows_bind; [peg|]. intros _. exact A.
  - intros s' l r' S' H. apply bind_inv in H as (x' & t & E & H). assert (Tt : suf T t) by (eapply suf_trans; [exact S'|]; assert (K : takes (g_article_reference total)) by peg; exact (K _ _ _ E)).
    assert (E' : one_part (g_article_reference total) s' = Some ([x'], t)) by (unfold one_part, p_map, p_bind; now rewrite E).
    apply A in E'; [|exact S']. walk H. subst l r'. eapply row_after; [|reflexivity|exact E']. clear -T total E0 E1 E2 E3 E4.
    assert (K : suf t s4); [|apply pos_mono with (T := T) in K; exact K]. 
    assert (P0 : takes (p_tok (u8 "és"))) by peg. assert (P1 : takes g_az) by peg. assert (P2 : takes (p_opt (p_toks [u8 "azt"; u8 "azokat"]))) by peg.
    assert (P3 : takes (p_tok (u8 "megelőző"))) by peg. assert (P4 : takes g_subtitle_token) by peg.
    eapply suf_trans; [exact (P0 _ _ _ E0)|]. eapply suf_trans; [exact (P1 _ _ _ E1)|]. eapply suf_trans; [exact (P2 _ _ _ E2)|]. eapply suf_trans; [exact (P3 _ _ _ E3)|exact (P4 _ _ _ E4)].
  - apply rows_none; [peg|lia].
Qed.
End Text.
