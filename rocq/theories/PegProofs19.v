From Coq Require Import Lia Permutation.
From Coq Require Import ZifyBool ZifyNat ZifyN.
From Verif Require Import Unicode PyBase PyBaseFacts NumModel IdModel DateModel RefModel RefSpec RefProofs StructModel TreeModel SemModel SemSpec GramModel GramSpec GramProofs GramProofs2 GramProofs3 PegModel PegSpec PegProofs PegProofs2 PegProofs3 PegProofs4 PegProofs5 PegProofs6 PegProofs7 PegProofs8 PegProofs9 PegProofs15 PegProofs16 PegProofs17.
Local Open Scope Z_scope.

(** * References of a text without ranges do not overlap *)

Definition refs_apart (x y : outgoing_reference) : Prop := or_end x <= or_start y \/ or_end y <= or_start x.
(* references that do not overlap, each in one of the spans *)
Definition kept_in (sps : list span) (os : list outgoing_reference) : Prop :=
  ForallOrdPairs refs_apart os /\ forall o, In o os -> exists sp, In sp sps /\ fst sp <= or_start o /\ or_start o < or_end o /\ or_end o <= snd sp.
Lemma kept_nil l : kept_in l [].
Proof. split; [constructor|intros ? []]. Qed.
Lemma pairs_app {A} (R : A -> A -> Prop) l m : ForallOrdPairs R l -> ForallOrdPairs R m -> (forall x y, In x l -> In y m -> R x y) -> ForallOrdPairs R (l ++ m).
Proof.
  intros L M C. induction L as [|x l F L IH]; [exact M|]. cbn [app]. constructor.
  - apply Forall_app. split; [exact F|]. apply Forall_forall. intros y Y. apply C; [now left|exact Y].
  - apply IH. intros u v U. apply C. now right.
Qed.
Lemma kept_app a b l m es fs : placed a b (l ++ m) -> kept_in l es -> kept_in m fs -> kept_in (l ++ m) (es ++ fs).
Proof.
  intros P [N1 W1] [N2 W2]. apply placed_split in P as (_ & _ & C). split.
  - apply pairs_app; auto. intros x y X Y. destruct (W1 x X) as (u & U1 & U2), (W2 y Y) as (v & V1 & V2). specialize (C u v U1 V1). unfold spans_apart, refs_apart in *. lia.
  - intros e E. apply in_app_iff in E as [E|E]; [destruct (W1 e E) as (u & U & V)|destruct (W2 e E) as (u & U & V)]; exists u; (split; [apply in_app_iff; auto|exact V]).
Qed.
Lemma order_kept s e l : in_order s e l -> kept_in [(s, e)] l.
Proof.
  assert (B : in_order s e l -> s <= e /\ forall o, In o l -> s <= or_start o /\ or_start o < or_end o /\ or_end o <= e).
  { induction 1 as [|s e o l A1 A2 H [I1 I2]]; [split; [lia|intros ? []]|]. split; [lia|]. intros x [<-|X]; [lia|]. specialize (I2 x X). lia. }
  intros H. split.
  - clear B. induction H as [|s e o l A1 A2 H IH]; constructor; [|exact IH]. apply Forall_forall. intros x X. left.
    clear -H X. revert H X. generalize (or_end o). clear. intros p H. induction H as [|s e o l A1 A2 H IH]; [intros []|]. intros [<-|X]; [exact A1|]. specialize (IH X). lia.
  - intros o O. exists (s, e). split; [now left|]. apply B; auto.
Qed.

Section Text.
Variable T : pystr.
Hypothesis ND : ~ range_dash T.
Lemma laid_placed s e l : laid_out s e l -> Forall (well_read T) l -> well_placed s e l.
Proof.
  intros [I R] W. assert (D : Forall (fun x => exists i, ad_data x = RId i) l).
  { revert W. apply Forall_impl. intros x (_ & _ & _ & N & D). destruct (ad_data x) as [|i|i j]; [congruence|eauto|]. destruct ND. now apply (D i j). }
  assert (P : ForallOrdPairs (fun x y => ad_end x <= ad_start y /\ (level_of (ad_type x) <= level_of (ad_type y))%nat) l).
  { clear W I. induction R as [|x l F R IH]; [constructor|]. apply Forall_cons_iff in D as [(i & Di) D]. constructor; [|auto].
    apply Forall_forall. intros y Y. rewrite Forall_forall in F, D. destruct (F y Y) as (F1 & _ & F3). destruct (D y Y) as (j & Dj). eauto. }
  split; [exact I|]. split.
  - clear -P. induction P as [|x l F P IH]; constructor; [|exact IH]. revert F. apply Forall_impl. unfold apart. auto.
  - intros l1 x y l2 -> _. apply pairs_split in P as (P1 & P2 & P3). inversion P2 as [|? ? F P4]; subst. apply Forall_cons_iff in F as [F F'].
    inversion P4 as [|? ? G _]; subst. apply Forall_app in I as [I1 I2]. apply Forall_cons_iff in I2 as [X I2]. apply Forall_cons_iff in I2 as [Y I2]. unfold inside in *.
    split; [apply F|]. apply Forall_app. split; apply Forall_forall; intros z Z.
    + specialize (P3 z x Z (or_introl eq_refl)). rewrite Forall_forall in I1. specialize (I1 z Z). cbn in P3. lia.
    + rewrite Forall_forall in G, I2. specialize (G z Z). specialize (I2 z Z). lia.
Qed.
Lemma single_kept act r l : fine_reference T r -> convert_single_in_text_reference act r = Ok l -> kept_in (ref_spans r) l.
Proof.
  intros F H. apply convert_single_collects in H as (c & A & ->). unfold ref_spans. destruct (gr_span r) as [s e] eqn:E.
  pose proof (fr_less _ _ F) as L. pose proof (fr_laid _ _ F) as La. rewrite E in *. cbn [fst snd] in *.
  apply order_kept. eapply collector_spans; [apply additions_real|exact A|exact L|]. apply laid_placed; [exact La|apply F].
Qed.
Lemma flat_kept act refs : forall l a b, Forall (fine_reference T) refs -> flat_mapM (convert_single_in_text_reference act) refs = Ok l ->
  placed a b (flat_map ref_spans refs) -> kept_in (flat_map ref_spans refs) l.
Proof.
  induction refs as [|r refs IH]; intros l a b F H P; cbn [flat_mapM] in H; [injection H as <-; apply kept_nil|].
  apply Forall_cons_iff in F as [F1 F2]. apply bind_ok in H as (x & X & H). apply bind_ok in H as (y & Y & H). injection H as <-.
  cbn [flat_map] in P |- *. eapply kept_app; [exact P|eapply single_kept; eauto|]. apply placed_split in P as (_ & P & _). eapply IH; eauto.
Qed.
Lemma same_spans sps os : forall os', map or_start os' = map or_start os -> map or_end os' = map or_end os -> kept_in sps os -> kept_in sps os'.
Proof.
  intros os' S E [K1 K2]. split.
  - clear K2. revert os' S E. induction K1 as [|x l F K IH]; intros os' S E; destruct os' as [|y l']; try discriminate; constructor; cbn in S, E; injection S as S1 S2; injection E as E1 E2; [|auto].
    clear -F S1 E1 S2 E2. revert l' S2 E2. induction F as [|z l R F IH]; intros l' S2 E2; destruct l' as [|w l']; try discriminate; constructor; cbn in S2, E2; injection S2 as S3 S4; injection E2 as E3 E4; [|auto].
    unfold refs_apart in *. rewrite S1, E1, S3, E3. exact R.
  - clear K1. revert os' S E. induction os as [|x os IH]; intros os' S E; destruct os' as [|y os']; try discriminate; [intros ? []|]. cbn in S, E. injection S as S1 S2. injection E as E1 E2.
    intros o [<-|O]; [rewrite S1, E1; apply K2; now left|]. eapply IH; eauto. intros z Z. apply K2. now right.
Qed.
Lemma multiple_kept act refs l a b : Forall (fine_reference T) refs -> convert_multiple_in_text_references act refs = Ok l ->
  placed a b (flat_map ref_spans refs) -> kept_in (flat_map ref_spans refs) l.
Proof.
  intros F H P. apply multiple_chained in H as (own & O & C). apply chained_spans in C as [C1 C2]. eapply flat_kept in O; eauto. eapply same_spans; eauto.
Qed.
Lemma act_kept x o y a b : act_outgoing x y = Ok o -> placed a b (act_spans x) -> kept_in (act_spans x) [o].
Proof.
  unfold act_outgoing, get_act_id_pos, act_spans. destruct (ga_abbreviation x) as [[z sp]|]; [|destruct (ga_act_id x) as [[[? ?] sp]|]]; cbn [bind]; intros H; try discriminate; injection H as <-; intros (_ & F & _); apply Forall_cons_iff in F as [F _];
    (split; [repeat constructor|]); cbn; (intros e [<-|[]]; exists sp; split; [now left|cbn; lia]).
Qed.
Lemma potential_kept act r o : opt_fine (fine_reference T) r -> convert_potential_in_text_reference act r = Ok o ->
  kept_in (opt_spans ref_spans r) (match o with Some x => [x] | None => [] end).
Proof.
  intros F H. destruct r as [r|]; cbn in H; [|injection H as <-; apply kept_nil]. apply bind_ok in H as (l & L & H). specialize (F r eq_refl).
  apply single_kept in L; [|exact F]. destruct l as [|x [|]]; injection H as <-; try apply kept_nil. exact L.
Qed.
Lemma refs_app l m : all_references (l ++ m) = all_references l ++ all_references m.
Proof. unfold all_references. now rewrite flat_map_app. Qed.
Lemma refs_outgoing l : all_references (map COutgoing l) = l.
Proof. unfold all_references. induction l as [|x l IH]; [reflexivity|]. cbn in *. now rewrite IH. Qed.
Lemma refs_semantic l : all_references (map CSemantic l) = [].
Proof. unfold all_references. induction l as [|x l IH]; [reflexivity|exact IH]. Qed.
Lemma refs_abbreviation l : all_references (map CAbbreviation l) = [].
Proof. unfold all_references. induction l as [|x l IH]; [reflexivity|exact IH]. Qed.
Lemma refs_semantics r l : semantics r = Ok l -> all_references l = [].
Proof. intros H. apply bind_ok in H as (x & _ & H). injection H as <-. apply refs_semantic. Qed.
Lemma refs_outgoings r l : outgoings r = Ok l -> exists x, r = Ok x /\ all_references l = x.
Proof. intros H. apply bind_ok in H as (x & E & H). injection H as <-. exists x. split; [exact E|apply refs_outgoing]. Qed.
Lemma refs_both x y l : both x y = Ok l -> exists u v, x = Ok u /\ y = Ok v /\ all_references l = all_references u ++ all_references v.
Proof. intros H. apply bind_ok in H as (u & U & H). apply bind_ok in H as (v & V & H). injection H as <-. exists u, v. rewrite refs_app. auto. Qed.
Lemma act_and_references_kept x refs l a b : Forall (fine_reference T) refs -> act_and_references x refs = Ok l ->
  placed a b (act_spans x ++ flat_map ref_spans refs) -> kept_in (act_spans x ++ flat_map ref_spans refs) l.
Proof.
  intros F H P. unfold act_and_references in H. apply bind_ok in H as (i & _ & H). apply bind_ok in H as (o & O & H). apply bind_ok in H as (m & M & H). injection H as <-.
  pose proof (placed_split _ _ _ _ P) as (P1 & P2 & _). change (o :: m) with ([o] ++ m). eapply kept_app; [exact P|eapply act_kept; eauto|eapply multiple_kept; eauto].
Qed.
Lemma node_kept n l a b : fine_node T n -> convert_single_node n = Ok l -> placed a b (node_spans n) -> kept_in (node_spans n) (all_references l).
Proof.
  intros N H P. destruct n; cbn [fine_node convert_single_node node_spans] in *.
  - destruct N as [A R]. apply refs_outgoings in H as (x & X & ->). destruct act_reference as [y|]; cbn [compound_to_outgoing opt_spans] in *.
    + apply bind_ok in X as (i & _ & X). apply bind_ok in X as (o & O & X). apply bind_ok in X as (m & M & X). injection X as <-.
      pose proof (placed_split _ _ _ _ P) as (P1 & P2 & _). change (o :: m) with ([o] ++ m). eapply kept_app; [exact P|eapply act_kept; eauto|eapply flat_kept; eauto].
    + eapply flat_kept; eauto.
  - apply bind_ok in H as (m & _ & H). injection H as <-. rewrite refs_abbreviation. apply kept_nil.
  - apply refs_both in H as (u & v & U & V & ->). apply refs_semantics in V. rewrite V, app_nil_r. apply refs_outgoings in U as (x & X & ->).
    unfold block_to_outgoing in X. apply bind_ok in X as (i & _ & X). apply bind_ok in X as (o & O & X). apply bind_ok in X as (p & Ap & X). apply bind_ok in X as (q & Iq & X). injection X as <-.
    destruct N as (A & Am & In_). pose proof (placed_split _ _ _ _ P) as (P1 & P2 & _). 
    apply potential_kept in Ap; [|exact Am]. apply potential_kept in Iq; [|exact In_].
    match goal with |- kept_in _ (o :: ?p' ++ ?q') => assert (E1 : p' = match p with Some x => [x] | None => [] end \/ exists z, p = Some z /\ p' = [z]) end.
    { destruct p; eauto. }
    match goal with |- kept_in _ (o :: ?p' ++ ?q') => change (o :: p' ++ q') with ([o] ++ p' ++ q') end.
    eapply kept_app; [exact P|eapply act_kept; eauto|]. eapply kept_app; [exact P2| |].
    + destruct p; exact Ap.
    + eapply same_spans; [| |exact Iq]; destruct p, q; reflexivity.
  - apply refs_semantics in H. rewrite H. apply kept_nil.
  - apply refs_semantics in H. rewrite H. apply kept_nil.
  - apply refs_both in H as (u & v & U & V & ->). apply refs_semantics in U. rewrite U. cbn [app]. apply refs_outgoings in V as (x & X & ->).
    apply bind_ok in X as (l1 & L1 & X). apply bind_ok in X as (l2 & L2 & X). injection X as <-. destruct N as [[R1 R2] _]. pose proof (placed_split _ _ _ _ P) as (P1 & P2 & _).
    eapply kept_app; [exact P|eapply multiple_kept; eauto..].
  - apply refs_both in H as (u & v & U & V & ->). apply refs_semantics in U. rewrite U. cbn [app]. apply refs_outgoings in V as (x & X & ->).
    eapply act_and_references_kept; [|exact X|exact P]. tauto.
  - apply refs_both in H as (u & v & U & V & ->). apply refs_semantics in U. rewrite U. cbn [app]. apply refs_outgoings in V as (x & X & ->).
    apply bind_ok in X as (i & _ & X). apply bind_ok in X as (o & O & X). injection X as <-. pose proof (placed_split _ _ _ _ P) as (P1 & P2 & _).
    match goal with |- kept_in _ (?z :: ?w) => change (z :: w) with ([z] ++ w) end. eapply kept_app; [exact P|eapply act_kept; eauto|].
    destruct P2 as (_ & P2 & _). apply Forall_cons_iff in P2 as [P2 _]. split; [repeat constructor|]. intros e [<-|[]]. eexists. split; [now left|]. cbn [or_start or_end]. lia.
  - apply refs_both in H as (u & v & U & V & ->). apply refs_semantics in U. rewrite U. cbn [app]. apply refs_outgoings in V as (x & X & ->).
    eapply act_and_references_kept; [|exact X|exact P]. tauto.
  - apply refs_both in H as (u & v & U & V & ->). apply refs_semantics in U. rewrite U. cbn [app]. apply refs_outgoings in V as (x & X & ->).
    apply bind_ok in X as (i & _ & X). apply bind_ok in X as (o & O & X). injection X as <-. eapply act_kept; eauto.
  - injection H as <-. apply kept_nil.
Qed.
Lemma nodes_kept nodes : forall l a b, Forall (fine_node T) nodes -> flat_mapM convert_single_node nodes = Ok l -> placed a b (flat_map node_spans nodes) ->
  kept_in (flat_map node_spans nodes) (all_references l).
Proof.
  induction nodes as [|n nodes IH]; intros l a b F H P; cbn [flat_mapM] in H; [injection H as <-; apply kept_nil|].
  apply Forall_cons_iff in F as [F1 F2]. apply bind_ok in H as (x & X & H). apply bind_ok in H as (y & Y & H). injection H as <-.
  cbn [flat_map] in P |- *. rewrite refs_app. pose proof (placed_split _ _ _ _ P) as (P1 & P2 & _). eapply kept_app; [exact P|eapply node_kept; eauto|eapply IH; eauto].
Qed.
End Text.

Theorem references_apart text a : ~ range_dash text -> grammar_analyzer text = Some a -> ForallOrdPairs refs_apart (an_references a).
Proof.
  intros ND H. unfold grammar_analyzer, analyzer_of in H. destruct (grammar_parse text) as [t|] eqn:E; [|discriminate].
  destruct (convert_depth_first t) as [l|] eqn:D; [|discriminate]. injection H as <-. cbn [an_references]. rewrite depth_first in D. pose proof (parse_fine _ _ E) as F.
  unfold grammar_parse in E. destruct (g_start (Z.of_nat (length text)) text) as [[t' r]|] eqn:G; [|discriminate]. injection E as ->.
  assert (S : suf text text) by (exists []; reflexivity).
  assert (L : 0 <= pos_of (Z.of_nat (length text)) text) by (unfold pos_of; lia).
  pose proof (sits_start text 0 text t r (placed_nil _ _ L) S G) as P.
  eapply nodes_kept in D; [exact (proj1 D)|exact ND|exact F|exact P].
Qed.
