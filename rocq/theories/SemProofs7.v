From Coq Require Import Lia.
From Coq Require Import ZifyBool ZifyNat ZifyN.
From Verif Require Import PyBase PyBaseFacts NumSpec IdModel IdSpec LineModel DateModel RefModel RefSpec
  TreeModel TreeSpec TreeProofs TreeProofs2 TreeProofs3 StructModel FixupModel SemModel SemSpec.
Local Open Scope Z_scope.

(** * The introduction of a block amendment *)

Lemma bracketed_spec s ctx : bracketed s = Some ctx <->
  exists space o c, s = space ++ [o] ++ ctx ++ [c] /\ In space [[]; u8 " "] /\ In [o; c] [u8 "()"; u8 "[]"].
Proof.
  unfold bracketed. split.
  - intros H.
    assert (G : forall s, match s with
        | o :: t => match rev t with
            | c :: m => if ((o =? 40) && (c =? 41))%N || ((o =? 91) && (c =? 93))%N then Some (rev m) else None
            | [] => None end
        | [] => None end = Some ctx -> exists o c, s = [o] ++ ctx ++ [c] /\ In [o; c] [u8 "()"; u8 "[]"]).
    { clear. intros [|o t]; [discriminate|]. destruct (rev t) as [|c m] eqn:E; [discriminate|].
      destruct (_ || _) eqn:B; [|discriminate]. intros [= <-]. exists o, c. split.
      - cbn. f_equal. rewrite <- (rev_involutive t), E. reflexivity.
      - assert (H : (o = 40 /\ c = 41 \/ o = 91 /\ c = 93)%N) by lia. destruct H as [[-> ->]|[-> ->]]; cbn; auto. }
    destruct s as [|x s]; [discriminate|]. destruct (x =? 32)%N eqn:X.
    + assert (x = 32%N) by lia. subst x. apply G in H as (o & c & -> & H). exists (u8 " "), o, c. cbn; auto.
    + apply (G (x :: s)) in H as (o & c & E & H). exists [], o, c. rewrite E. cbn; auto.
  - intros (space & o & c & -> & S & B).
    assert (H : (o = 40 /\ c = 41 \/ o = 91 /\ c = 93)%N).
    { destruct B as [B|[B|[]]]; injection B as <- <-; auto. }
    destruct S as [<-|[<-|[]]]; destruct H as [[-> ->]|[-> ->]]; cbn; rewrite rev_app_distr; cbn; rewrite rev_involutive; reflexivity.
Qed.

Lemma split_aux_complete r1 : forall before r2, bracketed r2 <> None -> split_intro_aux before (r1 ++ [58%N] ++ r2) <> None.
Proof.
  induction r1 as [|z r1 IH]; intros before r2 B; cbn [app split_intro_aux].
  - destruct (split_intro_aux (before ++ [58%N]) r2) as [p|]; [discriminate|]. cbn. destruct (bracketed r2); [discriminate|congruence].
  - destruct (split_intro_aux (before ++ [z]) (r1 ++ 58%N :: r2)) as [p|] eqn:E; [discriminate|].
    exfalso. exact (IH _ _ B E).
Qed.

Lemma split_aux_spec rest : forall before a ctx, split_intro_aux before rest = Some (a, ctx) ->
  exists r1 r2, rest = r1 ++ [58%N] ++ r2 /\ a = before ++ r1 ++ [58%N] /\ bracketed r2 = Some ctx /\
    forall r1' r2', rest = r1' ++ [58%N] ++ r2' -> bracketed r2' <> None -> (List.length r1' <= List.length r1)%nat.
Proof.
  induction rest as [|c rest IH]; intros before a ctx H; [discriminate|]. cbn [split_intro_aux] in H.
  destruct (split_intro_aux (before ++ [c]) rest) as [[a' c']|] eqn:E.
  - injection H as -> ->. apply IH in E as (r1 & r2 & -> & -> & B & M). exists (c :: r1), r2.
    split; [reflexivity|]. split; [now rewrite <- app_assoc|]. split; [exact B|]. intros [|x r1'] r2' E' B'; cbn; [lia|].
    cbn in E'. injection E' as -> E'. apply M in E'; [|exact B']. lia.
  - destruct (c =? 58)%N eqn:C; [|discriminate]. destruct (bracketed rest) as [x|] eqn:B; [|discriminate].
    injection H as <- <-. assert (c = 58%N) by lia. subst c. exists [], rest. split; [reflexivity|]. split; [reflexivity|].
    split; [exact B|]. intros [|y r1'] r2' E' B'; [lia|]. exfalso. cbn in E'. injection E' as _ E'. subst rest.
    exact (split_aux_complete _ _ _ B' E).
Qed.
Lemma drop_newline_app s : ~ In 10%N s -> forall nl, In nl [[]; [10%N]] -> drop_final_newline (s ++ nl) = s.
Proof.
  intros N nl [<-|[<-|[]]]; unfold drop_final_newline.
  - rewrite app_nil_r. destruct (rev s) as [|c t] eqn:E; [reflexivity|].
    assert (c <> 10%N). { intros ->. apply N. apply in_rev. rewrite E. now left. }
    destruct c as [|c]; [reflexivity|]. do 4 (destruct c as [c|c|]; try reflexivity). congruence.
  - rewrite rev_app_distr. cbn. apply rev_involutive.
Qed.
Lemma drop_newline_inv s : exists nl, In nl [[]; [10%N]] /\ s = drop_final_newline s ++ nl.
Proof.
  unfold drop_final_newline. destruct (rev s) as [|c t] eqn:E.
  - exists []. rewrite app_nil_r. cbn; auto.
  - assert (Es : s = rev t ++ [c]) by (rewrite <- (rev_involutive s), E; reflexivity).
    destruct (N.eq_dec c 10) as [->|X].
    + exists [10%N]. cbn; auto.
    + exists []. rewrite app_nil_r. split; [now left|].
      destruct c as [|c]; [reflexivity|]. do 4 (destruct c as [c|c|]; try reflexivity). congruence.
Qed.
Lemma no_newline_spec s : no_newline s = true <-> ~ In 10%N s.
Proof.
  unfold no_newline. rewrite forallb_forall. split.
  - intros H I. specialize (H _ I). discriminate.
  - intros H c Hc. destruct (c =? 10)%N eqn:E; [|reflexivity]. exfalso. apply H. assert (c = 10%N) by lia. now subst.
Qed.
Lemma with_context_iff intro a ctx : with_context intro a ctx <->
  ~ In 10%N (drop_final_newline intro) /\
  exists r1 r2, drop_final_newline intro = r1 ++ [58%N] ++ r2 /\ a = r1 ++ [58%N] /\ bracketed r2 = Some ctx.
Proof.
  unfold with_context. split.
  - intros (r1 & sp & o & c & nl & -> & -> & S & B & L & N).
    assert (N' : ~ In 10%N ((r1 ++ u8 ":") ++ sp ++ [o] ++ ctx ++ [c])).
    { rewrite !in_app_iff in *. intros [[H|H]|[H|[H|[H|H]]]]; try tauto.
      - destruct S as [<-|[<-|[]]]; cbn in H; intuition discriminate.
      - destruct B as [B|[B|[]]]; injection B as <- <-; cbn in H; intuition discriminate.
      - destruct B as [B|[B|[]]]; injection B as <- <-; cbn in H; intuition discriminate. }
    assert (E : drop_final_newline ((r1 ++ u8 ":") ++ sp ++ [o] ++ ctx ++ [c] ++ nl) = (r1 ++ u8 ":") ++ sp ++ [o] ++ ctx ++ [c]).
    { rewrite <- (drop_newline_app _ N' nl L). f_equal. now rewrite <- !app_assoc. }
    rewrite E. split; [exact N'|]. exists r1, (sp ++ [o] ++ ctx ++ [c]). split; [now rewrite <- app_assoc|].
    split; [reflexivity|]. apply bracketed_spec. eauto 10.
  - intros (N & r1 & r2 & E & -> & B). apply bracketed_spec in B as (sp & o & c & -> & S & B).
    destruct (drop_newline_inv intro) as (nl & L & En). exists r1, sp, o, c, nl. rewrite E in En, N.
    split; [rewrite En; now rewrite <- !app_assoc|]. split; [reflexivity|]. split; [exact S|]. split; [exact B|]. split; [exact L|].
    intros H. apply N. rewrite !in_app_iff in *. tauto.
Qed.
Lemma split_intro_spec intro a ctx : split_intro intro = Some (a, ctx) <-> splits_into intro a ctx.
Proof.
  unfold split_intro, splits_into. cbv zeta. split.
  - destruct (no_newline (drop_final_newline intro)) eqn:N; [|discriminate]. apply no_newline_spec in N.
    intros H. apply split_aux_spec in H as (r1 & r2 & E & -> & B & M). split.
    + apply with_context_iff. split; [exact N|]. exists r1, r2. auto.
    + intros a' c' H. apply with_context_iff in H as (_ & r1' & r2' & E' & -> & B'). cbn [app]. rewrite !app_length.
      specialize (M r1' r2' E'). assert (bracketed r2' <> None) by congruence. specialize (M H). cbn. lia.
  - intros [H M]. apply with_context_iff in H as (N & r1 & r2 & E & -> & B).
    assert (N' := N). apply no_newline_spec in N'. rewrite N'.
    destruct (split_intro_aux [] (drop_final_newline intro)) as [[a' c']|] eqn:S.
    + pose proof S as S'. apply split_aux_spec in S as (r1' & r2' & E' & -> & B' & M').
      assert (L1 : (List.length r1 <= List.length r1')%nat) by (eapply M'; [exact E|congruence]).
      assert (L2 : (List.length r1' <= List.length r1)%nat).
      { assert (W : with_context intro (r1' ++ [58%N]) c') by (apply with_context_iff; split; [exact N|]; eauto).
        apply M in W. rewrite !app_length in W. cbn in W. lia. }
      assert (X : r1 = r1' /\ r2 = r2').
      { rewrite E in E'. revert E'. assert (L : List.length r1 = List.length r1') by lia. clear - L. revert r1' L.
        induction r1 as [|x r1 IH]; intros [|y r1'] L E; try discriminate; cbn in E.
        - injection E as ->. auto.
        - injection E as -> E. cbn in L. destruct (IH r1') as [-> ->]; [lia|exact E|auto]. }
      destruct X as [-> ->]. cbn [app]. congruence.
    + exfalso. rewrite E in S. revert S. apply split_aux_complete. congruence.
Qed.
Lemma split_intro_none intro : split_intro intro = None <-> forall a c, ~ with_context intro a c.
Proof.
  split.
  - intros H a c W. apply with_context_iff in W as (N & r1 & r2 & E & -> & B). unfold split_intro in H.
    apply no_newline_spec in N. rewrite N, E in H. revert H. apply split_aux_complete. congruence.
  - intros H. destruct (split_intro intro) as [[a c]|] eqn:E; [|reflexivity]. exfalso.
    apply split_intro_spec in E as [E _]. exact (H _ _ E).
Qed.

(** * Paragraphs *)

Lemma block_ok_inv position ci co lines b : parse_block_amendment position ci co lines = Ok b ->
  exists cs, b = mk_sae KBlockAmendmentContainer None None ci (Some cs) co NO_META /\ well_formed b.
Proof.
  unfold parse_block_amendment. destruct (bind _ _) as [s|e] eqn:E; [|discriminate]. intros [= <-].
  apply bind_ok in E as (cs & _ & E). apply new_sae_ok in E as [-> W]. eauto.
Qed.
Lemma block_error position ci co lines e : parse_block_amendment position ci co lines = Err e ->
  e = BlockAmendmentStructureParsingError.
Proof. unfold parse_block_amendment. destruct (bind _ _); congruence. Qed.

Lemma block_paragraph_inv an p p' : block_parse_paragraph an p = Ok p' ->
  p' = p \/
  exists lines intro actual context outro position b,
    s_children p = Some [ChQuoted lines] /\ s_intro p = Some intro /\
    (splits_into intro actual (match context with Some c => c | None => [] end) /\ context <> None /\
       outro = match s_wrap_up p with Some w => Some (py_slice 1 (-1) w) | None => None end \/
     (forall a c, ~ with_context intro a c) /\ actual = intro /\ context = None /\ outro = None) /\
    parse_block_amendment position context outro lines = Ok b /\
    p' = mk_sae (s_kind p) (s_identifier p) (s_text p) (Some actual) (Some [ChSae b]) (Some []) (s_meta p).
Proof.
  unfold block_parse_paragraph. intros H. apply bind_ok in H as (ct & _ & H).
  destruct ct as [[k| | |k]|]; try (injection H as <-; now left).
  destruct (s_children p) as [cs|] eqn:C; [|discriminate]. destruct (s_intro p) as [intro|] eqn:I; [|discriminate].
  destruct (10000 <? _); [injection H as <-; now left|].
  destruct (match split_intro intro with None => _ | Some _ => _ end) as [[actual context] outro] eqn:S.
  apply bind_ok in H as (a & _ & H). destruct (first_block_amendment (an_semantic a)) as [position|]; [|injection H as <-; now left].
  apply bind_ok in H as (u & U1 & H). apply bind_ok in H as (lines & Q & H).
  destruct (parse_block_amendment position context outro lines) as [b|e] eqn:B.
  2:{ apply block_error in B. subst e. discriminate. }
  apply new_sae_ok in H as [-> _]. right. exists lines, intro, actual, context, outro, position, b.
  unfold assert_ in U1. destruct (Nat.eqb (List.length cs) 1) eqn:L; [|discriminate].
  unfold quoted_block in Q. rewrite C in Q. destruct cs as [|c0 [|]]; try discriminate.
  cbn in Q. destruct c0; try discriminate. injection Q as ->. split; [reflexivity|]. split; [reflexivity|].
  split; [|auto]. destruct (split_intro intro) as [[a1 c1]|] eqn:E; injection S as <- <- <-.
  - left. apply split_intro_spec in E. repeat split; try apply E. discriminate.
  - right. pose proof (proj1 (split_intro_none intro) E). auto.
Qed.
Lemma block_paragraph_other an p p' : well_formed p -> (forall lines, ~ (exists cs, s_children p = Some cs /\ In (ChQuoted lines) cs)) ->
  block_parse_paragraph an p = Ok p' -> p' = p.
Proof.
  intros W N H. apply block_paragraph_inv in H as [H|(lines & _ & _ & _ & _ & _ & _ & C & _)]; [exact H|].
  exfalso. apply (N lines). exists [ChQuoted lines]. split; [exact C|now left].
Qed.
Lemma block_paragraph_total_other an p : well_formed p -> (forall lines, ~ (exists cs, s_children p = Some cs /\ In (ChQuoted lines) cs)) ->
  block_parse_paragraph an p = Ok p.
Proof.
  intros W N. unfold block_parse_paragraph.
  destruct (children_type_complete (s_kind p) (s_children p)) as (t & Et); [apply W| |].
  { intros K l c d E Hc Hd. eapply wf_one_kind; eauto. }
  rewrite Et. cbn [bind]. destruct t as [[k| | |k]|]; try reflexivity. exfalso.
  unfold children_type in Et. destruct (s_children p) as [[|c l]|] eqn:C; try discriminate.
  assert (X : class_of c = TQuoted). { destruct (forallb _ _); [congruence|]. destruct (mixed_children_allowed _); discriminate. }
  destruct c; try discriminate. apply (N lines). eexists. split; [reflexivity|now left].
Qed.
(* a failure to parse the amendment is a failure of the whole step *)
Lemma block_paragraph_failure an p lines intro actual context outro a position e :
  s_children p = Some [ChQuoted lines] -> s_intro p = Some intro -> Z.of_nat (List.length intro) <= 10000 ->
  (match split_intro intro with
   | None => (intro, None, None)
   | Some (a, c) => (a, Some c, match s_wrap_up p with Some w => Some (py_slice 1 (-1) w) | None => None end)
   end) = (actual, context, outro) ->
  an actual = Some a -> first_block_amendment (an_semantic a) = Some position ->
  parse_block_amendment position context outro lines = Err e ->
  block_parse_paragraph an p = Err BlockAmendmentStructureParsingError.
Proof.
  intros C I L S A F B. unfold block_parse_paragraph. rewrite C. cbn [children_type forallb class_of bind].
  rewrite I. destruct (10000 <? _) eqn:E; [lia|]. rewrite S. unfold analyze. rewrite A. cbn [bind]. rewrite F.
  change (assert_ (Nat.eqb (List.length [ChQuoted lines]) 1)) with (@Ok unit tt). cbn [bind].
  assert (Q : quoted_block p 0 = Ok lines) by (unfold quoted_block; rewrite C; reflexivity). rewrite Q. cbn [bind].
  rewrite B. apply block_error in B. subst e. reflexivity.
Qed.

(* identifiers and the order of everything stay *)
Lemma block_paragraph_identifier an p p' : block_parse_paragraph an p = Ok p' ->
  s_kind p' = s_kind p /\ s_identifier p' = s_identifier p /\ s_text p' = s_text p /\ s_meta p' = s_meta p.
Proof.
  intros H. apply block_paragraph_inv in H as [->|(lines & intro & actual & context & outro & position & b & _ & _ & _ & _ & ->)]; auto.
Qed.
