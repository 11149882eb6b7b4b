From Coq Require Import Lia Permutation.
From Coq Require Import ZifyBool ZifyNat ZifyN.
From Verif Require Import Unicode PyBase PyBaseFacts NumModel IdModel DateModel RefModel RefSpec RefProofs StructModel TreeModel SemModel SemSpec GramModel GramSpec GramProofs GramProofs2 GramProofs3 PegModel PegSpec PegProofs PegProofs2 PegProofs3 PegProofs4 PegProofs5 PegProofs6 PegProofs7 PegProofs8 PegProofs9 PegProofs15 PegProofs16.
Local Open Scope Z_scope.

(** * No two references of a text end at the same place *)

(* different ends, each in one of the spans *)
Definition within (sps : list span) (es : list Z) : Prop := NoDup es /\ forall e, In e es -> exists sp, In sp sps /\ fst sp < e <= snd sp.
Lemma within_nil l : within l [].
Proof. split; [constructor|intros ? []]. Qed.
Lemma nodup_app {A} (l m : list A) : NoDup l -> NoDup m -> (forall x, In x l -> ~ In x m) -> NoDup (l ++ m).
Proof.
  intros L M D. induction L as [|x l N L IH]; [exact M|]. cbn. constructor.
  - rewrite in_app_iff. intros [X|X]; [contradiction|]. eapply D; [now left|exact X].
  - apply IH. intros y Y. apply D. now right.
Qed.
Lemma pairs_split {A} (R : A -> A -> Prop) l m : ForallOrdPairs R (l ++ m) -> ForallOrdPairs R l /\ ForallOrdPairs R m /\ forall x y, In x l -> In y m -> R x y.
Proof.
  induction l as [|x l IH]; cbn [app]; intros H; [split; [constructor|]; split; [exact H|intros ? ? []]|].
  inversion H as [|? ? F G]; subst. apply Forall_app in F as [F1 F2]. destruct (IH G) as (I1 & I2 & I3). split; [now constructor|]. split; [exact I2|].
  intros u v [<-|U] V; [rewrite Forall_forall in F2; auto|auto].
Qed.
Lemma placed_split a b l m : placed a b (l ++ m) -> placed a b l /\ placed a b m /\ forall x y, In x l -> In y m -> spans_apart x y.
Proof.
  intros (L & F & O). apply Forall_app in F as [F1 F2]. apply pairs_split in O as (O1 & O2 & O3). repeat split; auto.
Qed.
Lemma within_app a b l m es fs : placed a b (l ++ m) -> within l es -> within m fs -> within (l ++ m) (es ++ fs).
Proof.
  intros P [N1 W1] [N2 W2]. apply placed_split in P as (_ & _ & C). split.
  - apply nodup_app; auto. intros e X Y. destruct (W1 e X) as (u & U1 & U2), (W2 e Y) as (v & V1 & V2). specialize (C u v U1 V1). unfold spans_apart in C. lia.
  - intros e E. apply in_app_iff in E as [E|E]; [destruct (W1 e E) as (u & U & V)|destruct (W2 e E) as (u & U & V)]; exists u; (split; [apply in_app_iff; auto|exact V]).
Qed.

Section Text.
Variable T : pystr.
Lemma single_within act r l : fine_reference T r -> convert_single_in_text_reference act r = Ok l -> within (ref_spans r) (map or_end l).
Proof.
  intros F H. apply convert_single_collects in H as (c & A & ->). destruct (collector_ends _ _ _ (fst (gr_span r)) (snd (gr_span r)) (additions_real r) A) as (m & E & P).
  rewrite E. destruct (fr_ends _ _ F) as [N B]. pose proof (fr_less _ _ F) as L.
  assert (M : forall e, In e m -> fst (gr_span r) < e < snd (gr_span r)).
  { intros e I. eapply part_in in I; [|exact P]. apply in_map_iff in I as (x & <- & I). rewrite Forall_forall in B. auto. }
  split.
  - apply nodup_app; [eapply part_nodup; eauto|repeat constructor; intros []|]. intros x X [<-|[]]. specialize (M _ X). lia.
  - intros e I. exists (gr_span r). split; [now left|]. apply in_app_iff in I as [I|[<-|[]]]; [specialize (M e I)|]; lia.
Qed.
Lemma flat_within act refs : forall l a b, Forall (fine_reference T) refs -> flat_mapM (convert_single_in_text_reference act) refs = Ok l ->
  placed a b (flat_map ref_spans refs) -> within (flat_map ref_spans refs) (map or_end l).
Proof.
  induction refs as [|r refs IH]; intros l a b F H P; cbn [flat_mapM] in H; [injection H as <-; apply within_nil|].
  apply Forall_cons_iff in F as [F1 F2]. apply bind_ok in H as (x & X & H). apply bind_ok in H as (y & Y & H). injection H as <-.
  cbn [flat_map] in P |- *. rewrite map_app. eapply within_app; [exact P|eapply single_within; eauto|]. apply placed_split in P as (_ & P & _). eapply IH; eauto.
Qed.
Lemma multiple_within act refs l a b : Forall (fine_reference T) refs -> convert_multiple_in_text_references act refs = Ok l ->
  placed a b (flat_map ref_spans refs) -> within (flat_map ref_spans refs) (map or_end l).
Proof.
  intros F H P. apply multiple_chained in H as (own & O & C). apply chained_spans in C as [_ ->]. eapply flat_within; eauto.
Qed.
Lemma act_within x o y a b : act_outgoing x y = Ok o -> placed a b (act_spans x) -> within (act_spans x) [or_end o].
Proof.
  unfold act_outgoing, get_act_id_pos, act_spans. destruct (ga_abbreviation x) as [[z sp]|]; [|destruct (ga_act_id x) as [[[? ?] sp]|]]; cbn [bind]; intros H; try discriminate; injection H as <-; intros (_ & F & _); apply Forall_cons_iff in F as [F _];
    (split; [repeat constructor; intros []|]); cbn; (intros e [<-|[]]; exists sp; split; [now left|lia]).
Qed.
Lemma potential_within act r o : opt_fine (fine_reference T) r -> convert_potential_in_text_reference act r = Ok o ->
  within (opt_spans ref_spans r) (match o with Some x => [or_end x] | None => [] end).
Proof.
  intros F H. destruct r as [r|]; cbn in H; [|injection H as <-; apply within_nil]. apply bind_ok in H as (l & L & H). specialize (F r eq_refl).
  apply single_within in L; [|exact F]. destruct l as [|x [|]]; injection H as <-; try apply within_nil. exact L.
Qed.
Definition conversion_ends (l : list conversion) : list Z := map or_end (all_references l).
Lemma conversion_ends_app l m : conversion_ends (l ++ m) = conversion_ends l ++ conversion_ends m.
Proof. unfold conversion_ends, all_references. now rewrite flat_map_app, map_app. Qed.
Lemma ends_outgoing l : conversion_ends (map COutgoing l) = map or_end l.
Proof. unfold conversion_ends, all_references. induction l as [|x l IH]; [reflexivity|]. cbn in *. now rewrite IH. Qed.
Lemma ends_semantic l : conversion_ends (map CSemantic l) = [].
Proof. unfold conversion_ends, all_references. induction l as [|x l IH]; [reflexivity|exact IH]. Qed.
Lemma ends_abbreviation l : conversion_ends (map CAbbreviation l) = [].
Proof. unfold conversion_ends, all_references. induction l as [|x l IH]; [reflexivity|exact IH]. Qed.
Lemma ends_semantics r l : semantics r = Ok l -> conversion_ends l = [].
Proof. intros H. apply bind_ok in H as (x & _ & H). injection H as <-. apply ends_semantic. Qed.
Lemma ends_outgoings r l : outgoings r = Ok l -> exists x, r = Ok x /\ conversion_ends l = map or_end x.
Proof. intros H. apply bind_ok in H as (x & E & H). injection H as <-. exists x. split; [exact E|apply ends_outgoing]. Qed.
Lemma both_inv x y l : both x y = Ok l -> exists u v, x = Ok u /\ y = Ok v /\ conversion_ends l = conversion_ends u ++ conversion_ends v.
Proof. intros H. apply bind_ok in H as (u & U & H). apply bind_ok in H as (v & V & H). injection H as <-. exists u, v. rewrite conversion_ends_app. auto. Qed.
Lemma act_and_references_within x refs l a b : Forall (fine_reference T) refs -> act_and_references x refs = Ok l ->
  placed a b (act_spans x ++ flat_map ref_spans refs) -> within (act_spans x ++ flat_map ref_spans refs) (map or_end l).
Proof.
  intros F H P. unfold act_and_references in H. apply bind_ok in H as (i & _ & H). apply bind_ok in H as (o & O & H). apply bind_ok in H as (m & M & H). injection H as <-.
  pose proof (placed_split _ _ _ _ P) as (P1 & P2 & _). change (map or_end (o :: m)) with ([or_end o] ++ map or_end m). eapply within_app; [exact P|eapply act_within; eauto|eapply multiple_within; eauto].
Qed.
Lemma node_within n l a b : fine_node T n -> convert_single_node n = Ok l -> placed a b (node_spans n) -> within (node_spans n) (conversion_ends l).
Proof.
  intros N H P. destruct n; cbn [fine_node convert_single_node node_spans] in *.
  - destruct N as [A R]. apply ends_outgoings in H as (x & X & ->). destruct act_reference as [y|]; cbn [compound_to_outgoing opt_spans] in *.
    + apply bind_ok in X as (i & _ & X). apply bind_ok in X as (o & O & X). apply bind_ok in X as (m & M & X). injection X as <-.
      pose proof (placed_split _ _ _ _ P) as (P1 & P2 & _). change (map or_end (o :: m)) with ([or_end o] ++ map or_end m). eapply within_app; [exact P|eapply act_within; eauto|eapply flat_within; eauto].
    + eapply flat_within; eauto.
  - apply bind_ok in H as (m & _ & H). injection H as <-. rewrite ends_abbreviation. apply within_nil.
  - apply both_inv in H as (u & v & U & V & ->). apply ends_semantics in V. rewrite V, app_nil_r. apply ends_outgoings in U as (x & X & ->).
    unfold block_to_outgoing in X. apply bind_ok in X as (i & _ & X). apply bind_ok in X as (o & O & X). apply bind_ok in X as (p & Ap & X). apply bind_ok in X as (q & Iq & X). injection X as <-.
    destruct N as (A & Am & In_). pose proof (placed_split _ _ _ _ P) as (P1 & P2 & _). 
    apply potential_within in Ap; [|exact Am]. apply potential_within in Iq; [|exact In_].
    match goal with |- within _ (map or_end (o :: ?p' ++ ?q')) => assert (E1 : map or_end p' = match p with Some x => [or_end x] | None => [] end) by (destruct p; reflexivity);
      assert (E2 : map or_end q' = match q with Some x => [or_end x] | None => [] end) by (destruct p, q; reflexivity) end.
    cbn [map]. rewrite map_app, E1, E2. match goal with |- within _ (?z :: ?w) => change (z :: w) with ([z] ++ w) end.
    eapply within_app; [exact P|eapply act_within; eauto|]. eapply within_app; [exact P2|exact Ap|exact Iq].
  - apply ends_semantics in H. rewrite H. apply within_nil.
  - apply ends_semantics in H. rewrite H. apply within_nil.
  - apply both_inv in H as (u & v & U & V & ->). apply ends_semantics in U. rewrite U. cbn [app]. apply ends_outgoings in V as (x & X & ->).
    apply bind_ok in X as (l1 & L1 & X). apply bind_ok in X as (l2 & L2 & X). injection X as <-. destruct N as [[R1 R2] _]. pose proof (placed_split _ _ _ _ P) as (P1 & P2 & _).
    rewrite map_app. eapply within_app; [exact P|eapply multiple_within; eauto..].
  - apply both_inv in H as (u & v & U & V & ->). apply ends_semantics in U. rewrite U. cbn [app]. apply ends_outgoings in V as (x & X & ->).
    eapply act_and_references_within; [|exact X|exact P]. tauto.
  - apply both_inv in H as (u & v & U & V & ->). apply ends_semantics in U. rewrite U. cbn [app]. apply ends_outgoings in V as (x & X & ->).
    apply bind_ok in X as (i & _ & X). apply bind_ok in X as (o & O & X). injection X as <-. pose proof (placed_split _ _ _ _ P) as (P1 & P2 & _).
    cbn [map or_end]. match goal with |- within _ (?z :: ?w) => change (z :: w) with ([z] ++ w) end. eapply within_app; [exact P|eapply act_within; eauto|].
    destruct P2 as (_ & P2 & _). apply Forall_cons_iff in P2 as [P2 _]. split; [repeat constructor; intros []|]. intros e [<-|[]]. eexists. split; [now left|]. lia.
  - apply both_inv in H as (u & v & U & V & ->). apply ends_semantics in U. rewrite U. cbn [app]. apply ends_outgoings in V as (x & X & ->).
    eapply act_and_references_within; [|exact X|exact P]. tauto.
  - apply both_inv in H as (u & v & U & V & ->). apply ends_semantics in U. rewrite U. cbn [app]. apply ends_outgoings in V as (x & X & ->).
    apply bind_ok in X as (i & _ & X). apply bind_ok in X as (o & O & X). injection X as <-. eapply act_within; eauto.
  - injection H as <-. apply within_nil.
Qed.
Lemma nodes_within nodes : forall l a b, Forall (fine_node T) nodes -> flat_mapM convert_single_node nodes = Ok l -> placed a b (flat_map node_spans nodes) ->
  within (flat_map node_spans nodes) (conversion_ends l).
Proof.
  induction nodes as [|n nodes IH]; intros l a b F H P; cbn [flat_mapM] in H; [injection H as <-; apply within_nil|].
  apply Forall_cons_iff in F as [F1 F2]. apply bind_ok in H as (x & X & H). apply bind_ok in H as (y & Y & H). injection H as <-.
  cbn [flat_map] in P |- *. rewrite conversion_ends_app. pose proof (placed_split _ _ _ _ P) as (P1 & P2 & _). eapply within_app; [exact P|eapply node_within; eauto|eapply IH; eauto].
Qed.
End Text.

Theorem ends_differ text a : grammar_analyzer text = Some a -> NoDup (map or_end (an_references a)).
Proof.
  intros H. unfold grammar_analyzer, analyzer_of in H. destruct (grammar_parse text) as [t|] eqn:E; [|discriminate].
  destruct (convert_depth_first t) as [l|] eqn:D; [|discriminate]. injection H as <-. cbn [an_references]. rewrite depth_first in D. pose proof (parse_fine _ _ E) as F.
  unfold grammar_parse in E. destruct (g_start (Z.of_nat (length text)) text) as [[t' r]|] eqn:G; [|discriminate]. injection E as ->.
  assert (S : suf text text) by (exists []; reflexivity).
  assert (L : 0 <= pos_of (Z.of_nat (length text)) text) by (unfold pos_of; lia).
  pose proof (sits_start text 0 text t r (placed_nil _ _ L) S G) as P.
  eapply nodes_within in D; [exact (proj1 D)|exact F|exact P].
Qed.
