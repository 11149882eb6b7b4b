From Coq Require Import Lia Permutation Sorted.
From Coq Require Import ZifyBool ZifyNat ZifyN.
From Verif Require Import Unicode PyBase PyBaseFacts NumModel IdModel DateModel RefModel RefSpec RefProofs StructModel TreeModel TreeSpec SemModel SemSpec SemProofs SemProofs6 GramModel GramSpec HtmlModel HtmlSpec
  PegModel PegSpec PegProofs9 PegProofs14 PegProofs17 PegProofs19.
Local Open Scope Z_scope.

(** * Acts read by the grammar *)

Lemma worth_visible s : worth_reading s -> visible s.
Proof.
  intros (_ & w & a & b & W & ->). assert (V : exists c, In c w /\ isspace_chr c = false).
  { cbn in W. repeat (destruct W as [<-|W]; [eexists; split; [now left|reflexivity]|]). destruct W. }
  destruct V as (c & C & S). exists c. split; [|exact S]. rewrite !in_app_iff. auto.
Qed.
Lemma clear_readable rd : clear rd -> readable grammar_analyzer rd.
Proof.
  unfold clear, readable. destruct (rd_text rd) as [s|]; [|auto]. intros (t & I & C). exists t. split; [exact I|]. intros W.
  destruct (analyzer_total _ (C W) (worth_visible _ W)) as (a & A). exists a. split; [exact A|]. now apply ends_differ in A.
Qed.
Theorem grammar_act a : built_act a -> unparsed_act a -> complete_act a -> Forall clear (readings_of a) ->
  exists a', add_semantics_to_act grammar_analyzer a = Ok a'.
Proof.
  intros B U C R. apply act_total; auto. revert R. apply Forall_impl. exact clear_readable.
Qed.

Lemma pairs_perm {A} (R : A -> A -> Prop) (sym : forall x y, R x y -> R y x) l m : Permutation l m -> ForallOrdPairs R l -> ForallOrdPairs R m.
Proof.
  intros P. induction P as [|x l m P IH|x y l|l m k P1 IH1 P2 IH2]; intros H; auto.
  - inversion H as [|? ? F G]; subst. constructor; [|auto]. eapply Permutation_Forall; eauto.
  - inversion H as [|? ? F G]; subst. inversion G as [|? ? F' G']; subst. apply Forall_cons_iff in F as [F1 F2]. constructor; [constructor; auto|constructor; auto].
Qed.
Lemma kept_apart m p len l k : kept_references m p len l k -> ForallOrdPairs refs_apart l -> (forall r, In r l -> or_start r < or_end r) ->
  ForallOrdPairs refs_apart k /\ forall z, or_start z < or_end z -> Forall (refs_apart z) l -> Z.of_nat p < or_end z -> Forall (refs_apart (shift_reference m p z)) k.
Proof.
  induction 1 as [|r l k E K IH|r l k E K IH]; intros O S.
  - split; [constructor|]. intros. constructor.
  - inversion O as [|? ? F G]; subst. destruct IH as [I1 I2]; [exact G|intros x X; apply S; now right|]. unfold ends_inside in E. specialize (S r (or_introl eq_refl)). split.
    + constructor; [|exact I1]. apply I2; auto. lia.
    + intros z Z Q L. apply Forall_cons_iff in Q as [Q1 Q2]. constructor; [|now apply I2]. unfold refs_apart in *. cbn. lia.
  - inversion O as [|? ? F G]; subst. destruct IH as [I1 I2]; [exact G|intros x X; apply S; now right|]. split; [exact I1|].
    intros z Z Q L. apply Forall_cons_iff in Q as [Q1 Q2]. now apply I2.
Qed.
Lemma stored_good known rd m refs : rangeless rd -> stored grammar_analyzer known rd m -> m_outgoing m = Some refs -> good_positions refs.
Proof.
  intros R S O. unfold stored, rangeless in *. destruct (rd_text rd) as [s|] eqn:T.
  2:{ subst m. injection O as <-. split; constructor. }
  destruct S as (t & IT & N & Y). cbv zeta in *.
  assert (D : worth_reading (rd_before rd ++ t ++ rd_after rd) \/ ~ worth_reading (rd_before rd ++ t ++ rd_after rd)).
  { rewrite worth_spec. destruct (10000 <? _), (existsb _ _); intuition congruence. }
  destruct D as [D|D].
  - destruct (Y D) as (a & f & found & k & A & _ & K & P & SS & ->). injection O as <-.
    assert (S0 : forall r, In r (an_references a) -> or_start r < or_end r) by (intros r I; eapply grammar_sane; eauto).
    pose proof (references_apart _ _ (R t IT D) A) as Ap. destruct (kept_apart _ _ _ _ _ K Ap S0) as [Q _]. split.
    + eapply Permutation_Forall; [exact P|]. apply Forall_forall. intros r I. eapply kept_bounds in K; [|exact S0|exact I]. lia.
    + revert P Q. apply pairs_perm. unfold refs_apart. tauto.
  - rewrite (N D) in O. injection O as <-. split; constructor.
Qed.
Theorem grammar_positions a a' : built_act a -> unparsed_act a -> Forall rangeless (readings_of a) -> add_semantics_to_act grammar_analyzer a = Ok a' ->
  forall e refs, In e (carriers_of a') -> m_outgoing (s_meta e) = Some refs -> good_positions refs.
Proof.
  intros B U R H e refs He O. destruct (Forall2_in_r _ _ _ _ (act_each_stored grammar_analyzer a a' B U H) He) as (rd & I & _ & known & S).
  rewrite Forall_forall in R. eapply stored_good; eauto.
Qed.
