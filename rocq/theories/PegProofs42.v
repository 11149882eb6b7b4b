From Coq Require Import Lia Permutation Sorted.
From Coq Require Import ZifyBool ZifyNat ZifyN.
From Verif Require Import Unicode PyBase PyBaseFacts NumModel IdModel DateModel RefModel RefSpec StructModel TreeModel TreeSpec SemModel SemSpec SemProofs SemProofs2 SemProofs3 SemProofs4 GramModel GramSpec GramProofs GramProofs3 PegModel PegSpec PegSpec2 PegSpec3 PegSpec4 PegSpec5 PegProofs PegProofs2 PegProofs8 PegProofs9 PegProofs20 PegProofs31 PegProofs34 JointProofs2 PegProofs37 PegProofs40 PegProofs41 CiteSpec CiteProofs4.
Local Open Scope Z_scope.

(** * Nodes of a dull text *)

Definition minor_conversion (c : conversion) : Prop :=
  match c with COutgoing o => minor_reference (or_reference o) | CAbbreviation _ => False | CSemantic s => minor_semantic s end.
Lemma act_minor a i o : act_outgoing a i = Ok o -> minor_reference (or_reference o).
Proof. unfold act_outgoing. intros H. apply bind_ok in H as (p & _ & H). injection H as <-. split; [reflexivity|]. split; [reflexivity|]. intros j []. Qed.
Lemma potential_minor i r o : minor_ref r -> convert_potential_in_text_reference i (Some r) = Ok (Some o) -> minor_reference (or_reference o).
Proof.
  intros M H. cbn [convert_potential_in_text_reference] in H. apply bind_ok in H as (l & L & H). apply (single_minor _ _ _ M) in L. destruct l as [|x [|y l]]; try discriminate H. injection H as <-.
  now apply Forall_cons_iff in L as [L _].
Qed.
Lemma structural_minor i s r : away s -> convert_structural_reference i s = Ok r -> sr_special r = None.
Proof.
  destruct s; cbn [away convert_structural_reference]; intros A H; try destruct A;
    repeat match type of H with
           | context [match ?o with Some _ => _ | None => _ end] => destruct o
           | bind _ _ = Ok _ => apply bind_ok in H as (? & _ & H)
           end; try discriminate H; injection H as <-; reflexivity.
Qed.
Lemma out_minor r l : outgoings r = Ok l -> (forall x, r = Ok x -> Forall (fun o => minor_reference (or_reference o)) x) -> Forall minor_conversion l.
Proof. intros H F. unfold outgoings in H. apply bind_ok in H as (x & X & H). injection H as <-. specialize (F x X). apply Forall_forall. intros c C. apply in_map_iff in C as (o & <- & O). rewrite Forall_forall in F. exact (F o O). Qed.
Lemma sem_minor r l : semantics r = Ok l -> (forall x, r = Ok x -> Forall minor_semantic x) -> Forall minor_conversion l.
Proof. intros H F. unfold semantics in H. apply bind_ok in H as (x & X & H). injection H as <-. specialize (F x X). apply Forall_forall. intros c C. apply in_map_iff in C as (o & <- & O). rewrite Forall_forall in F. exact (F o O). Qed.
Lemma node_minor n l : minor_node n -> convert_single_node n = Ok l -> Forall minor_conversion l.
Proof.
  intros M H. destruct n as [a refs|a|a am ins|a st am ins|a am ins| | | | | |]; cbn [minor_node] in M; try (destruct M; fail); cbn [convert_single_node] in H.
  - eapply out_minor; [exact H|]. intros x X. unfold compound_to_outgoing in X. destruct a as [a|]; [|exact (flat_minor _ _ _ M X)].
    apply bind_ok in X as (i & _ & X). apply bind_ok in X as (o & O & X). apply bind_ok in X as (y & Y & X). injection X as <-. constructor; [exact (act_minor _ _ _ O)|exact (flat_minor _ _ _ M Y)].
  - unfold act_reference_to_abbreviation in H. rewrite M in H. injection H as <-. constructor.
  - destruct am as [am|]; [destruct M|]. destruct ins as [r|]; [|destruct M]. unfold both in H. apply bind_ok in H as (u & Hu & H). apply bind_ok in H as (v & Hv & H). injection H as <-. apply Forall_app. split.
    + eapply out_minor; [exact Hu|]. intros x X. unfold block_to_outgoing in X. apply bind_ok in X as (i & _ & X). apply bind_ok in X as (o & O & X). apply bind_ok in X as (y & Y & X). injection Y as <-.
      apply bind_ok in X as (z & Hz & X). injection X as <-. constructor; [exact (act_minor _ _ _ O)|]. destruct z as [z|]; [|constructor]. constructor; [exact (potential_minor _ _ _ M Hz)|constructor].
    + eapply sem_minor; [exact Hv|]. intros x X. unfold block_to_block in X. apply bind_ok in X as (i & _ & X). apply bind_ok in X as (y & Y & X). injection Y as <-.
      apply bind_ok in X as (z & Hz & X). unfold convert_potential_reference in Hz. apply bind_ok in Hz as (o & O & Hz). injection Hz as <-. destruct o as [o|]; cbn [option_map] in X; injection X as <-; [|constructor].
      constructor; [exact (potential_minor _ _ _ M O)|constructor].
  - destruct am as [am|]; [destruct M|]. destruct ins as [r|]; [|destruct M]. destruct M as [A P]. eapply sem_minor; [exact H|]. intros x X. unfold subtitle_to_block in X. apply bind_ok in X as (i & _ & X).
    apply bind_ok in X as (sr & Sr & X). apply bind_ok in X as (y & Y & X). injection Y as <-. apply bind_ok in X as (z & Hz & X). apply bind_ok in X as (b & B & X). injection X as <-. constructor; [|constructor].
    unfold convert_potential_reference in Hz. apply bind_ok in Hz as (o & O & Hz). injection Hz as <-. destruct o as [o|]; [|discriminate B]. cbn [option_map subtitle_block] in B. apply bind_ok in B as (p & Pp & B). injection B as <-.
    assert (M : minor_ref r) by (unfold minor_ref; rewrite P; constructor). destruct (potential_minor _ _ _ M O) as (R & _ & _). rewrite R in Pp. injection Pp as <-. cbn.
    destruct st as [st|]; [|injection Sr as <-; reflexivity]. exact (structural_minor _ _ _ (A st eq_refl) Sr).
  - destruct am as [am|]; [destruct M|]. destruct ins as [s|]; [|destruct M]. eapply sem_minor; [exact H|]. intros x X. unfold structural_to_block in X. apply bind_ok in X as (i & _ & X). apply bind_ok in X as (r & R & X). injection X as <-.
    constructor; [|constructor]. exact (structural_minor _ _ _ M R).
  - injection H as <-. constructor.
Qed.
Theorem dull_minor text a : dull text -> grammar_analyzer text = Some a ->
  an_abbreviations a = [] /\ Forall minor_semantic (an_semantic a) /\ Forall (fun o => minor_reference (or_reference o)) (an_references a).
Proof.
  intros D H. unfold grammar_analyzer, analyzer_of in H. destruct (grammar_parse text) as [t|] eqn:E; [|discriminate].
  destruct (convert_depth_first t) as [l|] eqn:C; [|discriminate]. injection H as <-. rewrite depth_first in C.
  assert (M : minor_tree t).
  { unfold grammar_parse in E. destruct (g_start (Z.of_nat (length text)) text) as [[t' r]|] eqn:G; [|discriminate]. injection E as ->. exact (start_minor text D text t r (suf_refl _) G). }
  assert (F : Forall minor_conversion l).
  { eapply flat_mapM_Forall; [exact C|]. intros x y Hx. apply node_minor. unfold minor_tree in M. rewrite Forall_forall in M. auto. }
  clear -F. cbn [an_abbreviations an_semantic an_references]. induction F as [|c l Hc F (A & S & R)]; [repeat constructor|].
  destruct c as [o|b|s]; cbn in Hc; [|destruct Hc|]; cbn; (split; [exact A|]; split; [|]); try assumption; constructor; assumption.
Qed.

(** * Sentences *)

Lemma sentence_found text refs sems abbrs : sentence_written text refs sems abbrs -> grammar_analyzer text = Some (mk_analysis refs sems abbrs).
Proof.
  intros [l m T O V|l s m B|l m B|l s m C|l s W P].
  - now apply cited_found.
  - now apply block_found.
  - now apply lost_found.
  - now apply change_found.
  - exact (proj1 (enforcement_sentence _ _ _ W) P).
Qed.
Lemma key_dec text : (exists w a b, In w key_words /\ text = a ++ w ++ b) \/ dull text.
Proof.
  assert (D : forall l, (exists w a b, In w l /\ text = a ++ w ++ b) \/ (forall w, In w l -> ~ has text w)).
  { induction l as [|w l [(v & a & b & I & E)|IH]]; [right; intros w []|left; exists v, a, b; split; [now right|exact E]|].
    destruct (contains_sub w text) eqn:C; [apply contains_sub_spec in C as (a & b & C); left; exists w, a, b; split; [now left|exact C]|].
    right. intros v [<-|I]; [|now apply IH]. intros (a & b & E). assert (X : contains_sub w text = true) by (apply contains_sub_spec; now exists a, b). congruence. }
  apply D.
Qed.
Lemma worth_or_minor text a : grammar_analyzer text = Some a -> Z.of_nat (length text) <= 10000 ->
  worth_reading text \/ (dull text /\ an_abbreviations a = [] /\ Forall minor_semantic (an_semantic a) /\ Forall (fun o => minor_reference (or_reference o)) (an_references a)).
Proof.
  intros A L. destruct (key_dec text) as [(w & x & y & I & E)|D]; [left; split; [exact L|]; exists w, x, y; auto|right; split; [exact D|exact (dull_minor _ _ D A)]].
Qed.

(** * Sentences of an act *)

Definition introduces (m : sae_meta) : list act_id_abbreviation := match m_abbreviations m with Some l => l | None => [] end.
Lemma stored_split an known rds ms after : stored_all an known rds ms after -> forall before rd rest before' m rest',
  rds = before ++ rd :: rest -> ms = before' ++ m :: rest' -> length before = length before' ->
  stored an (known ++ flat_map introduces before') rd m.
Proof.
  intros S. induction S as [known|known rd0 m0 ab rds ms after S0 A S IH]; intros before rd rest before' m rest' E E' L; [destruct before; discriminate E|].
  destruct before as [|x before], before' as [|y before']; try discriminate L; cbn [app] in E, E'.
  - injection E as <- _. injection E' as <- _. cbn [flat_map]. rewrite app_nil_r. exact S0.
  - injection E as <- E. injection E' as <- E'. injection L as L. specialize (IH _ _ _ _ _ _ E E' L). cbn [flat_map]. unfold introduces at 1. rewrite A, app_assoc. exact IH.
Qed.
Lemma item_text_unique s after t t' : item_text s after t -> item_text s after t' -> t = t'.
Proof. intros H H'. apply fix_end_spec in H. apply fix_end_spec in H'. congruence. Qed.
Theorem act_sentence a a' before rd rest before' m rest' s t refs sems abbrs :
  unparsed_act a -> add_semantics_to_act grammar_analyzer a = Ok a' ->
  readings_of a = before ++ rd :: rest -> map s_meta (carriers_of a') = before' ++ m :: rest' -> length before = length before' ->
  rd_text rd = Some s -> item_text s (rd_after rd) t ->
  worth_reading (rd_before rd ++ t ++ rd_after rd) -> sentence_written (rd_before rd ++ t ++ rd_after rd) refs sems abbrs ->
  exists f found sorted, meaning (flat_map introduces before' ++ abbrs) f /\
    kept_references f (length (rd_before rd)) (length t) refs found /\ Permutation found sorted /\ StronglySorted position_le sorted /\
    m = mk_meta (Some abbrs) (Some sorted) (Some (map (fun s => sem_resolve s f) sems)).
Proof.
  intros Un A R M L Tx It W Se. destruct (act_stored _ _ _ Un A) as [known S]. pose proof (stored_split _ _ _ _ _ S _ _ _ _ _ _ R M L) as Q.
  unfold stored in Q. rewrite Tx in Q. destruct Q as (t' & It' & _ & Q). rewrite (item_text_unique _ _ _ _ It' It) in Q. destruct (Q W) as (an & f & found & refs' & G & Me & K & P & So & E).
  rewrite (sentence_found _ _ _ _ Se) in G. injection G as <-. cbn [an_abbreviations an_references an_semantic] in *. exists f, found, refs'. auto.
Qed.
