From Coq Require Import Lia Permutation.
From Coq Require Import ZifyBool ZifyNat ZifyN.
From Verif Require Import Unicode PyBase PyBaseFacts NumModel IdModel DateModel RefModel RefSpec RefProofs StructModel TreeModel SemModel GramModel GramSpec GramProofs GramProofs2 GramProofs3 PegModel PegSpec PegProofs PegProofs2 PegProofs3 PegProofs4 PegProofs5 PegProofs6 PegProofs7 PegProofs8 PegProofs15.
Local Open Scope Z_scope.

(** * The spans that references are made of do not overlap *)

Definition spans_apart (x y : span) : Prop := snd x <= fst y \/ snd y <= fst x.
Definition placed (a b : Z) (l : list span) : Prop :=
  a <= b /\ Forall (fun sp => a <= fst sp /\ fst sp < snd sp /\ snd sp <= b) l /\ ForallOrdPairs spans_apart l.
Lemma placed_nil a b : a <= b -> placed a b [].
Proof. intros L. split; [exact L|]. split; constructor. Qed.
Lemma placed_wider a b a' b' l : a' <= a -> b <= b' -> placed a b l -> placed a' b' l.
Proof. intros A B (L & F & O). split; [lia|]. split; [|exact O]. revert F. apply Forall_impl. lia. Qed.
Lemma pairs_app {A} (R : A -> A -> Prop) l m : ForallOrdPairs R l -> ForallOrdPairs R m -> (forall x y, In x l -> In y m -> R x y) -> ForallOrdPairs R (l ++ m).
Proof.
  intros L M C. induction L as [|x l F G IH]; [exact M|]. cbn [app]. constructor.
  - apply Forall_app. split; [exact F|]. apply Forall_forall. intros y Y. apply C; [now left|exact Y].
  - apply IH. intros u v U V. apply C; [now right|exact V].
Qed.
Lemma placed_app a b c l m : placed a b l -> placed b c m -> placed a c (l ++ m).
Proof.
  intros (L & F & O) (L' & F' & O'). split; [lia|]. split.
  - apply Forall_app. split; [revert F|revert F']; apply Forall_impl; lia.
  - apply pairs_app; auto. intros x y X Y. rewrite Forall_forall in F, F'. specialize (F x X). specialize (F' y Y). left. lia.
Qed.
Lemma placed_perm a b l m : Permutation l m -> placed a b l -> placed a b m.
Proof.
  intros P (L & F & O). split; [exact L|]. split; [now rewrite <- P|]. eapply pairs_perm; [|exact P|exact O]. unfold spans_apart. lia.
Qed.

Definition opt_spans {A} (f : A -> list span) (o : option A) : list span := match o with Some x => f x | None => [] end.
Definition act_spans (a : g_act_ref) : list span :=
  match ga_abbreviation a, ga_act_id a with Some (_, sp), _ => [sp] | None, Some (_, _, sp) => [sp] | None, None => [] end.
Definition ref_spans (r : g_reference) : list span := [gr_span r].
Definition node_spans (n : g_node) : list span :=
  match n with
  | GCompoundReference a refs => opt_spans act_spans a ++ flat_map ref_spans refs
  | GBlockAmendment a am ins => act_spans a ++ opt_spans ref_spans am ++ opt_spans ref_spans ins
  | GEnforcementDate refs exc _ _ _ _ => flat_map ref_spans refs ++ flat_map ref_spans exc
  | GTextAmendment a refs _ | GSimpleRepeal a refs _ => act_spans a ++ flat_map ref_spans refs
  | GArticleTitleAmendment a _ sp _ _ => act_spans a ++ [sp]
  | GStructuralRepeal a _ => act_spans a
  | _ => []
  end.
Definition tree_spans (t : g_tree) : list span := flat_map node_spans (post_order t).

Section Text.
Variable T : pystr.
Let total := Z.of_nat (length T).
Local Notation pos := (pos_of total).

(* after [pre], the rule [p] leaves the spans [f x] *)
Definition leaves_spans {A} (pre : list span) (p : parser A) (f : A -> list span) : Prop :=
  forall a s x r, placed a (pos s) pre -> suf T s -> p s = Some (x, r) -> placed a (pos r) (f x).
Definition sits {A} (f : A -> list span) (p : parser A) : Prop := leaves_spans [] p f.
Lemma ls_or {A} pre (p q : parser A) f : leaves_spans pre p f -> leaves_spans pre q f -> leaves_spans pre (p <|> q) f.
Proof. intros P Q a s x r L S H. apply or_inv in H as [H|[_ H]]; eauto. Qed.
Lemma ls_rule {A} pre (p : parser A) f : leaves_spans pre p f -> leaves_spans pre (p_rule p) f.
Proof.
  intros P a s x r L S H. unfold p_rule in H. eapply P; [| |exact H]; [|now apply suf_ws].
  eapply placed_wider; [reflexivity| |exact L]. apply pos_mono with (T := T), ws_suf.
Qed.
Lemma ls_map {A B} pre (h : A -> B) p f : leaves_spans pre p (fun x => f (h x)) -> leaves_spans pre (p_map h p) f.
Proof. intros P a s x r L S H. apply map_inv in H as (y & H & ->). exact (P _ _ _ _ L S H). Qed.
Lemma ls_ret {A} pre (x : A) f : Permutation pre (f x) -> leaves_spans pre (p_ret x) f.
Proof. intros P a s y r L S H. apply ret_inv in H as [-> ->]. eapply placed_perm; eauto. Qed.
Lemma ls_bind {A B} pre (p : parser A) (q : A -> parser B) g f : takes p -> sits g p -> (forall x, leaves_spans (pre ++ g x) (q x) f) -> leaves_spans pre (p_bind p q) f.
Proof.
  intros K P Q a s x r L S H. apply bind_inv in H as (y & t & E & H). eapply Q; [|eapply suf_trans; [exact S|exact (K _ _ _ E)]|exact H].
  eapply placed_app; [exact L|]. eapply P; [|exact S|exact E]. apply placed_nil. lia.
Qed.
Lemma ls_skip {A B} pre (p : parser A) (q : A -> parser B) f : takes p -> (forall x, leaves_spans pre (q x) f) -> leaves_spans pre (p_bind p q) f.
Proof.
  intros K Q a s x r L S H. apply bind_inv in H as (y & t & E & H). eapply Q; [|eapply suf_trans; [exact S|exact (K _ _ _ E)]|exact H].
  eapply placed_wider; [reflexivity| |exact L]. exact (pos_mono T _ _ (K _ _ _ E)).
Qed.
Ltac skip := apply ls_skip; [peg|intros ?; cbv beta].
Lemma sits_nil {A} (p : parser A) f : takes p -> (forall x, f x = []) -> sits f p.
Proof.
  intros K F a s x r (L & _) S H. rewrite F. apply placed_nil. apply K, (pos_mono T) in H. fold total in H. lia.
Qed.
Lemma sits_opt {A} (p : parser A) f : takes p -> sits f p -> sits (opt_spans f) (p_opt p).
Proof. intros K P a s x r L S H. apply opt_inv in H as [(y & -> & H)|(-> & -> & _)]; [exact (P _ _ _ _ L S H)|exact L]. Qed.
Lemma sits_many {A} (p : parser A) f : takes p -> sits f p -> sits (flat_map f) (p_many p).
Proof.
  intros K P a s x r L S H. unfold p_many in H. injection H as H. revert H.
  assert (G : forall n pre s l r, placed a (pos s) pre -> suf T s -> p_rounds n p s = (l, r) -> placed a (pos r) (pre ++ flat_map f l)).
  { clear s x r L S. induction n as [|n IH]; intros pre s l r L S H; cbn [p_rounds] in H; [injection H as <- <-; now rewrite app_nil_r|].
    destruct (p s) as [[y t]|] eqn:E; [|injection H as <- <-; now rewrite app_nil_r]. destruct (p_rounds n p t) as [l' r'] eqn:Q. injection H as <- <-.
    cbn [flat_map]. rewrite app_assoc. eapply IH; [|eapply suf_trans; [exact S|exact (K _ _ _ E)]|exact Q].
    eapply placed_app; [exact L|]. eapply P; [|exact S|exact E]. apply placed_nil. lia. }
  intros H. exact (G _ [] _ _ _ L S H).
Qed.
Lemma sits_many1 {A} (p : parser A) f : takes p -> sits f p -> sits (flat_map f) (p_many1 p).
Proof.
  intros K P. unfold p_many1. eapply ls_bind; [exact K|exact P|]. intros x. eapply ls_bind; [|apply sits_many; eauto|].
  - now apply takes_many.
  - intros l. apply ls_ret. reflexivity.
Qed.
Lemma sits_end {A} (p : parser A) f : takes p -> sits f p -> sits f (to_the_end p).
Proof.
  intros K P a s x r L S H. unfold to_the_end in H. apply bind_inv in H as (y & s1 & E & H). apply bind_inv in H as (u & s2 & E' & H). apply ret_inv in H as [-> ->].
  eapply placed_wider; [reflexivity| |exact (P _ _ _ _ L S E)]. apply (pos_mono T). unfold p_eof in E'. destruct (ws s1); [|discriminate]. injection E' as _ <-.
  exists s1. now rewrite app_nil_r.
Qed.
Lemma sits_span {A} (p : parser A) : ends p -> sits (fun x => [snd x]) (p_span total p).
Proof.
  intros E a s [x sp] r (L & _) S H. apply (span_good T) in H as (_ & _ & (G1 & G2 & G3 & _)); [|exact S|exact E]. fold total in G1, G3. cbn [snd].
  split; [lia|]. split; [constructor; [lia|constructor]|repeat constructor].
Qed.

Lemma sits_reference_of p : ends p -> sits ref_spans (reference_of total p).
Proof. intros E. unfold reference_of. apply ls_map. exact (sits_span p E). Qed.
Lemma sits_reference : sits ref_spans (g_reference_rule total).
Proof. apply sits_reference_of. peg. Qed.
Lemma sits_insertion : sits ref_spans (g_insertion_reference total).
Proof.
  apply sits_reference_of. pose proof (ends_article_and_paragraph total _ (ends_article_reference total)) as A.
  pose proof (ends_article_and_paragraph total _ (ends_az_article total)) as B. unfold one_part. peg.
Qed.
Lemma sits_listed : sits ref_spans (g_listed_reference total).
Proof.
  unfold g_listed_reference. eapply ls_bind; [peg|apply sits_reference|]. intros x; cbv beta. skip. apply ls_ret. reflexivity.
Qed.
Lemma sits_act : sits act_spans (g_act_reference total).
Proof.
  unfold g_act_reference. apply ls_rule, ls_or.
  - eapply ls_bind; [apply takes_span; peg|apply sits_span; peg|]. intros [x sp]. apply ls_ret. reflexivity.
  - apply ls_bind with (g := fun x => [snd x]); [peg| |].
    + unfold g_act_id. apply ls_map. intros a s [[y n] sp] r L S H. cbn [fst snd] in *. refine (sits_span _ _ a s (y, n, sp) r L S H). peg.
    + intros [[y n] sp]; cbv beta. skip. apply ls_ret. reflexivity.
Qed.
Lemma sits_the_act : sits act_spans (g_the_act total).
Proof.
  unfold g_the_act, g_upper_or_lower_az. skip. skip. apply sits_act.
Qed.
Lemma sits_repealed : sits act_spans (g_repealed_act total).
Proof. unfold g_repealed_act. skip. skip. skip. apply sits_act. Qed.
Lemma sits_compound : sits tree_spans (g_compound_reference total).
Proof.
  unfold g_compound_reference. apply ls_rule, ls_or.
  - eapply ls_bind; [peg|apply sits_act|]. intros a; cbv beta. eapply ls_bind; [peg|apply sits_many; [peg|apply sits_listed]|]. intros l; cbv beta.
    apply ls_ret. cbn. now rewrite app_nil_r.
  - eapply ls_bind; [peg|apply sits_reference|]. intros x; cbv beta. apply ls_ret. reflexivity.
Qed.
Lemma sits_other {A} (p : parser A) : takes p -> sits tree_spans (p_map (fun _ => GTree GOther []) p).
Proof. intros K. apply ls_map, sits_nil; [exact K|reflexivity]. Qed.
Lemma sits_simple : sits tree_spans (g_any_simple_expression total).
Proof.
  unfold g_any_simple_expression. apply ls_rule, ls_or; [apply ls_or; [apply ls_or|]|]; [apply sits_other; peg|apply sits_compound|apply sits_other; peg..].
Qed.
Lemma spans_with_act n a : tree_spans (node_with_act n a) = node_spans (n a).
Proof. unfold tree_spans, node_with_act. cbn. now rewrite app_nil_r. Qed.
Ltac done := apply ls_ret; rewrite ?spans_with_act; cbn; rewrite ?app_nil_r; try reflexivity.
Ltac act := eapply ls_bind; [peg|apply sits_the_act|intros ?; cbv beta].
Lemma sits_block : sits tree_spans (g_block_amendment total).
Proof.
  unfold g_block_amendment. apply ls_rule. act. skip. apply ls_map. apply ls_or; [apply ls_or|].
  - eapply ls_bind; [peg|apply sits_reference|intros ?; cbv beta]. skip. skip. done.
  - eapply ls_bind; [peg|apply sits_insertion|intros ?; cbv beta]. skip. skip. done.
  - eapply ls_bind; [peg|apply sits_reference|intros ?; cbv beta]. skip. skip. skip.
    eapply ls_bind; [peg|apply sits_insertion|intros ?; cbv beta]. skip. skip. done. now rewrite <- app_assoc.
Qed.
Lemma sits_empty {A} (p : parser A) f : takes p -> reads T (fun x => f x = []) p -> sits f p.
Proof.
  intros K P a s x r (L & _) S H. rewrite (P _ _ _ S H). apply placed_nil. apply K, (pos_mono T) in H. fold total in H. lia.
Qed.
Lemma takes_block_subtitle : takes (g_block_amendment_with_subtitle total). Proof. unfold g_block_amendment_with_subtitle. peg. Qed.
Lemma takes_block_structural : takes (g_block_amendment_structural total). Proof. unfold g_block_amendment_structural. peg. Qed.
Lemma sits_block_subtitle : sits tree_spans (g_block_amendment_with_subtitle total).
Proof.
  apply sits_empty; [apply takes_block_subtitle|]. unfold g_block_amendment_with_subtitle. apply reads_rule.
  intros s x r S H. apply bind_inv in H as (a & s1 & _ & H). apply bind_inv in H as (st & s2 & _ & H). apply map_inv in H as (y & _ & ->). rewrite spans_with_act. reflexivity.
Qed.
Lemma sits_block_structural : sits tree_spans (g_block_amendment_structural total).
Proof.
  apply sits_empty; [apply takes_block_structural|]. unfold g_block_amendment_structural. apply reads_rule.
  intros s x r S H. apply bind_inv in H as (a & s1 & _ & H). apply map_inv in H as (y & _ & ->). rewrite spans_with_act. reflexivity.
Qed.
Lemma sits_text : sits tree_spans (g_text_amendment total).
Proof.
  unfold g_text_amendment. apply ls_rule. act. eapply ls_bind; [peg|apply sits_many1; [peg|apply sits_listed]|]. intros l; cbv beta. skip. skip. done.
Qed.
Lemma sits_title : sits tree_spans (g_article_title_amendment total).
Proof.
  unfold g_article_title_amendment. apply ls_rule. act. eapply ls_bind; [peg|unfold g_single_article_reference; apply sits_span; peg|]. intros i; cbv beta.
  unfold p_suffixed. skip. skip. skip. skip. done.
Qed.
Lemma sits_repeal : sits tree_spans (g_repeal total).
Proof.
  unfold g_repeal. apply ls_rule. eapply ls_bind; [peg|apply sits_repealed|intros ?; cbv beta].
  eapply ls_bind; [peg|apply sits_many1; [peg|apply sits_listed]|]. intros l; cbv beta. skip. skip. done.
Qed.
Lemma sits_structural_repeal : sits tree_spans (g_structural_repeal total).
Proof.
  unfold g_structural_repeal. apply ls_rule. eapply ls_bind; [peg|apply sits_repealed|intros ?; cbv beta]. skip. skip. skip. done.
Qed.
Lemma sits_enforcement : sits tree_spans (g_enforcement_date total).
Proof.
  unfold g_enforcement_date. apply ls_rule. skip.
  eapply ls_bind; [peg|apply sits_opt with (f := ref_spans); [peg|]|].
  - skip. skip. eapply ls_bind; [peg|apply sits_reference|intros ?; cbv beta]. skip. skip. skip. apply ls_ret. reflexivity.
  - intros e; cbv beta. eapply ls_bind; [peg|apply sits_many; [peg|apply sits_listed]|]. intros l; cbv beta. skip. skip. skip. skip.
    destruct x0 as [[ex af] dm]. apply ls_ret. cbn. rewrite app_nil_r. rewrite Permutation_app_comm. destruct e; reflexivity.
Qed.
Lemma sits_start : sits tree_spans (g_start total).
Proof.
  unfold g_start. apply ls_rule.
  assert (K : takes (g_block_amendment total)) by (unfold g_block_amendment; peg).
  repeat apply ls_or.
  - apply sits_end; [exact K|apply sits_block].
  - apply sits_end; [apply takes_block_subtitle|apply sits_block_subtitle].
  - apply sits_end; [apply takes_block_structural|apply sits_block_structural].
  - apply sits_end; [unfold g_text_amendment; peg|apply sits_text].
  - apply sits_end; [unfold g_article_title_amendment, p_suffixed; peg|apply sits_title].
  - apply sits_end; [|apply sits_enforcement]. unfold g_enforcement_date. apply takes_rule. do 7 (apply takes_bind; [peg|intros ?; cbv beta]).
    match goal with |- takes (let (_, _) := ?x in _) => destruct x as [[? ?] ?] end. peg.
  - apply sits_end; [unfold g_repeal; peg|apply sits_repeal].
  - apply sits_end; [unfold g_structural_repeal; peg|apply sits_structural_repeal].
  - apply ls_map. intros a s x r L S H.
    assert (E : tree_spans (GTree GOther x) = flat_map tree_spans x).
    { unfold tree_spans. cbn [post_order]. rewrite flat_map_app. cbn. rewrite app_nil_r. clear. induction x as [|t x IH]; [reflexivity|]. cbn [flat_map]. now rewrite flat_map_app, IH. }
    rewrite E. clear E. revert a s x r L S H. apply sits_end; [peg|]. apply sits_many1; [peg|apply sits_simple].
Qed.
End Text.
