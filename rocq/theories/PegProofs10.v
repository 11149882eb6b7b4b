From Coq Require Import Lia.
From Coq Require Import ZifyBool ZifyNat ZifyN.
From Verif Require Import Unicode PyBase PyBaseFacts NumModel IdModel RefModel RefSpec TreeModel SemModel GramModel GramSpec GramProofs3 PegModel PegSpec PegProofs PegProofs2 PegProofs3 PegProofs4 PegProofs5 PegProofs6 PegProofs7.
Local Open Scope Z_scope.

(** * Texts that can be parsed *)

(* something visible is read *)
Definition eats {A} (p : parser A) : Prop := forall s x r, p s = Some (x, r) -> exists t, solid s t /\ suf t r.
Lemma eats_ends {A} (p : parser A) : ends p -> eats p.
Proof. intros P s x r H. exists r. split; [eauto|apply suf_refl]. Qed.
Lemma eats_first {A B} (p : parser A) (q : A -> parser B) : eats p -> (forall x, takes (q x)) -> eats (p_bind p q).
Proof. intros P Q s x r H. apply bind_inv in H as (y & s' & E & H). apply P in E as (t & S & F). exists t. split; [exact S|]. eapply suf_trans; [exact F|eapply Q; eauto]. Qed.
Lemma eats_second {A B} (p : parser A) (q : A -> parser B) : takes p -> (forall x, eats (q x)) -> eats (p_bind p q).
Proof. intros P Q s x r H. apply bind_inv in H as (y & s' & E & H). apply Q in H as (t & S & F). exists t. split; [|exact F]. eapply suf_solid; [eapply P; eauto|exact S]. Qed.
Lemma eats_or {A} (p q : parser A) : eats p -> eats q -> eats (p <|> q).
Proof. intros P Q s x r H. apply or_inv in H as [H|[_ H]]; eauto. Qed.
Lemma eats_map {A B} (f : A -> B) p : eats p -> eats (p_map f p).
Proof. intros P s x r H. apply map_inv in H as (y & H & _). eauto. Qed.
Lemma eats_rule {A} (p : parser A) : eats p -> eats (p_rule p).
Proof. intros P s x r H. apply P in H as (t & S & F). exists t. split; [|exact F]. eapply suf_solid; [apply ws_suf|exact S]. Qed.
Lemma eats_span {A} total (p : parser A) : eats p -> eats (p_span total p).
Proof. intros P s x r H. unfold p_span in H. destruct (p (ws s)) as [[y t]|] eqn:E; [|discriminate]. injection H as <- <-. apply P in E as (q & S & F). exists q. split; [|exact F]. eapply suf_solid; [apply ws_suf|exact S]. Qed.
Lemma eats_end {A} (p : parser A) : eats p -> forall s x r, to_the_end p s = Some (x, r) -> exists t, solid s t.
Proof. intros P s x r H. apply bind_inv in H as (y & q & E & _). apply P in E as (t & S & _). eauto. Qed.
Lemma eats_length {A} (p : parser A) s x r : eats p -> p s = Some (x, r) -> (length r < length s)%nat.
Proof. intros P H. apply P in H as (t & S & F). apply solid_length in S. apply suf_length in F. lia. Qed.
Lemma eats_many1 {A} (p : parser A) : eats p -> takes p -> eats (p_many1 p).
Proof. intros P K. apply eats_first; [exact P|]. intros x. peg. Qed.

Lemma eats_act_reference total : eats (g_act_reference total).
Proof.
  apply eats_rule, eats_or; (apply eats_first; [|intros; peg]).
  - apply eats_span, eats_ends. peg.
  - apply eats_ends. peg.
Qed.
Lemma eats_simple total : eats (g_any_simple_expression total).
Proof.
  apply eats_rule, eats_or; [apply eats_or; [apply eats_or|]|]; try (apply eats_map, eats_ends; peg).
  apply eats_rule, eats_or; (apply eats_first; [|intros; peg]); [apply eats_act_reference|apply eats_ends; peg].
Qed.
Lemma eats_the_act total : eats (g_the_act total).
Proof. unfold g_the_act, g_upper_or_lower_az. apply eats_second; [peg|]. intros ?; cbv beta. apply eats_second; [peg|]. intros ?; cbv beta. apply eats_act_reference. Qed.
Lemma eats_repealed total : eats (g_repealed_act total).
Proof. unfold g_repealed_act. apply eats_second; [peg|]. intros ?; cbv beta. apply eats_second; [peg|]. intros ?; cbv beta. apply eats_second; [peg|]. intros ?; cbv beta. apply eats_act_reference. Qed.

Lemma or_right {A} (p q : parser A) s : (exists x r, q s = Some (x, r)) -> exists x r, (p <|> q) s = Some (x, r).
Proof. intros Q. unfold p_or. destruct (p s) as [[x r]|]; [eauto|exact Q]. Qed.
Lemma simple_reads total s : ws s <> [] -> exists x r, g_any_simple_expression total s = Some (x, r).
Proof.
  intros N. unfold g_any_simple_expression, p_rule. apply or_right.
  enough (X : exists x r, g_any_token (ws s) = Some (x, r)) by (destruct X as (x & r & X); exists (GTree GOther []), r; unfold p_map, p_bind; rewrite X; reflexivity).
  unfold g_any_token, p_rule. rewrite ws_idem. apply or_right. rewrite re_set. destruct (ws s) as [|c t] eqn:W; [contradiction|].
  apply ws_head in W. unfold c_not_newline. destruct (N.eqb_spec c 10) as [->|_]; [vm_compute in W; discriminate|]. cbn. eauto.
Qed.
Lemma rounds_stop {A} (p : parser A) : eats p -> forall n s l r, (length s <= n)%nat -> p_rounds n p s = (l, r) -> p r = None.
Proof.
  intros P. induction n as [|n IH]; intros s l r L H; cbn [p_rounds] in H.
  - injection H as <- <-. destruct (p s) as [[x r]|] eqn:E; [|reflexivity]. apply eats_length in E; [lia|exact P].
  - destruct (p s) as [[x s']|] eqn:E; [|now injection H as <- <-]. destruct (p_rounds n p s') as [l' r'] eqn:Q. injection H as <- <-.
    apply eats_length in E; [|exact P]. eapply IH; [|exact Q]. lia.
Qed.
Lemma start_reads total s : ws s <> [] -> exists t r, g_start total s = Some (t, r).
Proof.
  intros N. unfold g_start, p_rule. apply or_right. destruct (simple_reads total (ws s)) as (x & r & E); [now rewrite ws_idem|].
  destruct (p_rounds (length r) (g_any_simple_expression total) r) as [l q] eqn:Q.
  assert (W : ws q = []).
  { destruct (ws q) eqn:W; [reflexivity|]. apply rounds_stop in Q; [|apply eats_simple|lia]. destruct (simple_reads total q) as (y & t & E'); [now rewrite W|]. congruence. }
  exists (GTree GOther (x :: l)), []. unfold p_map, to_the_end, p_many1, p_many, p_bind, p_ret. rewrite E, Q. unfold p_eof. now rewrite W.
Qed.
Lemma solid_visible s t : solid s t -> exists c, In c s /\ isspace_chr c = false.
Proof. intros (w & c & -> & C). exists c. split; [apply in_elt|exact C]. Qed.
Lemma start_eats total s t r : g_start total s = Some (t, r) -> exists c, In c s /\ isspace_chr c = false.
Proof.
  intros H. unfold g_start, p_rule in H.
  assert (X : exists t, solid (ws s) t).
  { repeat (apply or_inv in H as [H|[_ H]]; [|]); try (apply map_inv in H as (l & H & _)); (eapply eats_end; [|exact H]).
    9: apply eats_many1; [apply eats_simple|peg].
    all: apply eats_rule; try (apply eats_first; [first [apply eats_the_act|apply eats_repealed]|intros; peg]).
    all: try (apply eats_second; [peg|intros; peg]).
    apply eats_second; [peg|]. intros ?; cbv beta. apply eats_second; [peg|]. intros ?; cbv beta. apply eats_second; [peg|]. intros ?; cbv beta.
    apply eats_second; [peg|]. intros d; cbv beta. apply eats_first; [apply eats_ends; peg|]. intros ?; cbv beta. destruct d as [[ex af] dm]. peg. }
  destruct X as [q X]. apply solid_visible in X as (c & I & C). exists c. split; [|exact C]. pose proof (ws_suf s) as [u U]. rewrite U. apply in_or_app. now right.
Qed.
Theorem parses s : (exists t, grammar_parse s = Some t) <-> visible s.
Proof.
  unfold grammar_parse. split.
  - intros [t H]. destruct (g_start _ s) as [[x r]|] eqn:E; [|discriminate]. eapply start_eats; exact E.
  - intros (c & I & C). destruct (start_reads (Z.of_nat (length s)) s) as (t & r & E).
    + intros W. revert I W. unfold ws. induction s as [|d s IH]; [intros []|]. cbn [drop_while In]. intros [->|I]; [now rewrite C|].
      destruct (isspace_chr d); [auto|discriminate].
    + rewrite E. eauto.
Qed.
