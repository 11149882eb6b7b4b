(* Articles that are inserted at a named place, read forwards. *)
From Coq Require Import Lia.
From Coq Require Import ZifyBool ZifyNat ZifyN.
From Verif Require Import PyBase PyBaseFacts UnicodeAlnum NumModel NumSpec NumProofs IdModel LineModel DateModel RefModel RefSpec TreeModel StructModel SemModel GramModel GramSpec PegModel PegSpec PegSpec2 PegSpec3 PegProofs PegProofs2 PegProofs5 PegProofs6 PegProofs7 PegProofs10 PegProofs13 PegProofs14 PegProofs22 PegProofs23 PegProofs24 PegProofs25 PegProofs29 PegProofs30 PegProofs33 PegProofs34 PegProofs36 PegProofs37 DivSpec DivProofs DivProofs2 RefProofs CiteSpec CiteProofs2 CiteProofs4 CiteProofs5 PegProofs35 JointProofs JointProofs2 SubSpec SubProofs SubProofs2 SubProofs3 SubProofs4 PlaceSpec CiteSpec CiteProofs.
Local Open Scope Z_scope.

Section Total.
Variable total : Z.
Lemma block_reads_at z u a x y m s t st am ins : article_word z -> title_words u -> act_written a x y m -> after_act s -> p_opt g_structural_position s = Some (st, t) ->
  simple_amendment total t = Some ((am, ins), []) \/ (simple_amendment total t = None /\ simple_insertion total t = Some ((am, ins), [])) ->
  exists g, g_start total (z ++ u ++ x ++ y ++ s) = Some (node_with_act (fun a => GBlockAmendment a am ins) g, []) /\
    says_act a (pos_of total (x ++ y ++ s)) (pos_of total (y ++ s)) m g.
Proof.
  intros Z Tw A (G & B & M & I) P S. destruct (the_act_reads total z u a x y m s Z Tw A G B M I) as (g & T & Y). exists g. split; [|exact Y].
  pose proof (act_start z u x y s Z) as W. unfold g_start, p_rule at 1. rewrite W. do 8 apply or_yes. unfold to_the_end. rewrite (bind_yes _ _ _ (node_with_act (fun a => GBlockAmendment a am ins) g) []); [reflexivity|].
  unfold g_block_amendment, p_rule at 1. rewrite W. rewrite (bind_yes _ _ _ _ _ T), (bind_yes _ _ _ _ _ P). fold (simple_amendment total) (simple_insertion total).
  apply (map_yes (fun x => node_with_act (fun a => GBlockAmendment a (fst x) (snd x)) g) _ _ (am, ins)). apply or_yes. destruct S as [S|[S S']]; [now apply or_yes|now rewrite or_no].
Qed.
Lemma named_reads w s : named_place w -> untitled (u8 " a következő" ++ s) -> gap s -> after_act (w ++ u8 " a következő" ++ s) /\
  exists st, p_opt g_structural_position (w ++ u8 " a következő" ++ s) = Some (st, u8 " a következő" ++ s).
Proof.
  intros [a v r P|q t P W] U' G.
  - split; [exact (position_after_act a v r s P)|]. destruct (position_reads a v r s P U' G) as (st & S & _). eauto.
  - replace ((u8 " " ++ quoted q ++ t) ++ u8 " a következő" ++ s) with (32%N :: quoted q ++ t ++ u8 " a következő" ++ s) by (cbn [app]; now rewrite <- app_assoc). split; [apply title_after_act|].
    destruct (titled_division q t (u8 " a következő" ++ s) P W (or_intror (ex_intro _ _ eq_refl))) as (_ & R & _). eexists. apply opt_yes. exact R.
Qed.
Ltac walk T H :=
  lazymatch type of H with
  | p_bind ?p _ ?s = Some _ =>
      let x := fresh "x" in let t := fresh "s" in let E := fresh "E" in
      apply bind_inv in H as (x & t & E & H);
      assert (suf T t) by (let K := fresh in assert (K : takes p) by peg; eapply suf_trans; [|exact (K _ _ _ E)]; assumption);
      walk T H
  | p_ret _ _ = Some _ => apply ret_inv in H as [? ?]
  | _ => idtac
  end.
Lemma around_calm s : calm s -> (p_opt g_chapter_number ;~ g_after_article) s = None /\ (p_opt g_chapter_number ;~ g_before_article) s = None.
Proof.
  assert (P : forall a b, has s (a ++ b) -> has s a) by (intros a b (u & v & E); exists u, (b ++ v); now rewrite <- app_assoc in E).
  intros [B A]. pose proof (suf_refl s) as S. split; match goal with |- ?q = None => destruct q as [[x r]|] eqn:H; [exfalso|reflexivity] end.
  - walk s H. unfold g_after_article, p_rule in H. assert (S1 : suf s (ws s0)) by now apply suf_ws. walk s H. match goal with Q : p_toks _ _ = _ |- _ => apply toks_has with (T := s) in Q as (w & I & Q); [|assumption] end.
    apply B. destruct I as [<-|[<-|[]]]; [apply (P _ (u8 "en"))|]; assumption.
  - walk s H. unfold g_before_article, p_rule in H. assert (S1 : suf s (ws s0)) by now apply suf_ws. walk s H. match goal with Q : p_toks _ _ = _ |- _ => apply toks_has with (T := s) in Q as (w & I & Q); [|assumption] end.
    apply A. destruct I as [<-|[<-|[]]]; [apply (P _ (u8 "en"))|]; assumption.
Qed.
Lemma calm_space s : calm s -> calm (32%N :: s).
Proof. intros [A B]. split; intros (u & v & E); (destruct u as [|c u]; [discriminate E|]); injection E as _ E; [apply A|apply B]; now exists u, v. Qed.
Lemma plain_reads w s : plain_place (32%N :: s) w -> after_act (w ++ 32%N :: s) /\ exists st, p_opt g_structural_position (w ++ 32%N :: s) = Some (st, 32%N :: s).
Proof.
  intros [a v r P|q t P W|a v r D Ut C].
  - split; [exact (place_after_act a v r _ P)|]. destruct (place_reads a v r s P) as (d & R & _). eexists. apply opt_yes. exact R.
  - replace ((u8 " " ++ quoted q ++ t) ++ 32%N :: s) with (32%N :: quoted q ++ t ++ 32%N :: s) by (cbn [app]; now rewrite <- app_assoc). split; [apply title_after_act|].
    destruct (titled_division q t (32%N :: s) P W (or_intror (ex_intro _ _ eq_refl))) as (_ & R & _). eexists. apply opt_yes. exact R.
  - destruct (division_reads a v r (32%N :: s) D (gap_space _) Ut) as (d & R & _). destruct (around_calm _ (calm_space _ C)) as [A B]. split.
    + destruct (division_solid a v r D) as (c & t & -> & W & N & L). cbn [app]. apply solid_after_act; [exact W|exact N|cbn; lia].
    + exists (Some d). apply opt_yes. cbn [app]. unfold g_structural_position. fold g_division. rewrite or_no; [rewrite division_space; exact R|]. now rewrite or_no.
Qed.
End Total.
Lemma at_place (z u a x y : pystr) m (w i : pystr) st am ins g o n (b : bool) : article_word z -> title_words u -> act_written a x y m -> n = Z.of_nat (length (z ++ u ++ x ++ y ++ w ++ i)) -> after_act (w ++ i) ->
  p_opt g_structural_position (w ++ i) = Some (st, i) -> simple_amendment n i = Some ((am, ins), []) \/ (simple_amendment n i = None /\ simple_insertion n i = Some ((am, ins), [])) ->
  convert_single_in_text_reference (Some a) g = Ok [o] -> (am, ins) = (if b then (None, Some g) else (Some g, None)) ->
  grammar_analyzer (z ++ u ++ x ++ y ++ w ++ i) = Some (mk_analysis [mk_outgoing (size z + size u) (size z + size u + size x) (act_only a); o] [BlockAmendment (ARef (or_reference o)) b] m).
Proof.
  intros Z V A En Aa S R C D. assert (K : pos_of n (z ++ u ++ x ++ y ++ w ++ i) = 0) by (unfold pos_of; lia). rewrite !pos_app in K.
  destruct (block_reads_at n z u a x y m _ _ st _ _ Z V A Aa S R) as (h & H & Y). rewrite !pos_app in Y. match type of Y with says_act _ ?p ?q _ _ => replace p with (size z + size u) in Y by lia; replace q with (size z + size u + size x) in Y by lia end.
  assert (D' : (am, ins) = (Some g, None) \/ (am, ins) = (None, Some g)) by (destruct b; auto). pose proof (block_converts a _ _ m h am ins g o Y C D') as E.
  unfold grammar_analyzer, analyzer_of, grammar_parse. rewrite <- En, H, E, (conversions_of _ _ _ _ _ eq_refl). destruct b; injection D as -> ->; reflexivity.
Qed.
Lemma joint_at_place z u a x y m s t st am ins total : article_word z -> title_words u -> act_written a x y m -> after_act s -> p_opt g_structural_position s = Some (st, t) ->
  simple_amendment total t = None -> simple_insertion total t = None -> joint_amendment total t = Some ((am, ins), []) ->
  exists g, g_start total (z ++ u ++ x ++ y ++ s) = Some (node_with_act (fun a => GBlockAmendment a am ins) g, []) /\
    says_act a (pos_of total (x ++ y ++ s)) (pos_of total (y ++ s)) m g.
Proof.
  intros Z Tw A (G & B & M & I) P S1 S2 S3. destruct (the_act_reads total z u a x y m s Z Tw A G B M I) as (g & T & Y). exists g. split; [|exact Y].
  pose proof (act_start z u x y s Z) as W. unfold g_start, p_rule at 1. rewrite W. do 8 apply or_yes. unfold to_the_end. rewrite (bind_yes _ _ _ (node_with_act (fun a => GBlockAmendment a am ins) g) []); [reflexivity|].
  unfold g_block_amendment, p_rule at 1. rewrite W. rewrite (bind_yes _ _ _ _ _ T), (bind_yes _ _ _ _ _ P). fold (simple_amendment total) (simple_insertion total) (joint_amendment total).
  apply (map_yes (fun x => node_with_act (fun a => GBlockAmendment a (fst x) (snd x)) g) _ _ (am, ins)). rewrite or_no; [exact S3|]. now rewrite or_no.
Qed.
Lemma placed_ready a k v s e r k' i s' e' r' f : readable (no_parts (Some a)) -> reference_listed (Some a) k v [mk_outgoing s e r] -> joint_insertion (Some a) k' i [mk_outgoing s' e' r'] -> filled r (with_act None r') f ->
  readable r /\ readable f /\ r_act r = r_act f /\ relative_to (with_act None r') r = f.
Proof.
  intros A R J F. apply (listed_readable _ _ _ _ A) in R. apply (joint_readable _ _ _ _ A) in J. inversion R as [|? ? R1 _]; subst. inversion J as [|? ? R3 _]; subst. cbn in R1, R3.
  split; [exact R1|]. split; [exact (filled_readable r r' f F R1 R3)|]. split; [|now apply filled_relative]. destruct F as (j & (_ & N & _) & F). specialize (F 0%nat ltac:(lia)). destruct j as [|j]; [now destruct N|]. change (0 <? Datatypes.S j)%nat with true in F.
  unfold nth_part in F. cbn in F. destruct (r_act r), (r_act f); cbn in F; congruence.
Qed.
Lemma placed_found text refs sd m : placed text refs sd m -> grammar_analyzer text = Some (mk_analysis refs [sd] m).
Proof.
  intros [z u a x y m' w i o f k Z V A -> P I Ui F|z u a x y m' w i o f k Z V A -> P I F|z u a x y m' w i o f k Z V A -> P I F|z u a x y m' w v s e r f c i s' e' r' f' g q k k' Z V A -> P -> R F C J F' L Un].
  - set (n := Z.of_nat (length (z ++ u ++ x ++ y ++ w ++ u8 " a következő " ++ i ++ f ++ u8 ":"))).
    assert (K : pos_of n (z ++ u ++ x ++ y ++ w ++ u8 " a következő " ++ i ++ f ++ u8 ":") = 0) by (unfold pos_of, n; lia). rewrite !pos_app in K.
    assert (K' : pos_of n ((u8 " a következő " ++ i) ++ f ++ u8 ":") = size z + size u + size x + size y + size w) by (rewrite <- app_assoc, !pos_app; lia).
    destruct (inserted_reads n _ _ _ _ f I K' F) as (g & G & C). pose proof (insertion_no_amendment n _ _ _ _ _ I K') as N. rewrite <- app_assoc in G, N.
    assert (Us : untitled (u8 " a következő" ++ u8 " " ++ i ++ f ++ u8 ":")).
    { apply (untitled_cut (u8 " a következő") 32 (i ++ f ++ u8 ":")); [now left|apply untitled_check; reflexivity|]. assert (Q : exists q, f ++ u8 ":" = 32%N :: q /\ untitled q) by (destruct F as [<-|[<-|[]]]; eexists; (split; [reflexivity|apply untitled_check; reflexivity])).
      destruct Q as (q & -> & Q). apply untitled_cut; [now left|exact Ui|exact Q]. }
    destruct (named_reads w _ P Us (gap_space _)) as (Aa & st & S). exact (at_place z u a x y m' w _ st None (Some g) g o n true Z V A eq_refl Aa S (or_intror (conj N G)) C eq_refl).
  - set (n := Z.of_nat (length (z ++ u ++ x ++ y ++ w ++ u8 " " ++ i ++ f ++ u8 ":"))).
    assert (K : pos_of n (z ++ u ++ x ++ y ++ w ++ u8 " " ++ i ++ f ++ u8 ":") = 0) by (unfold pos_of, n; lia). rewrite !pos_app in K.
    assert (K' : pos_of n ((u8 " " ++ i) ++ f ++ u8 ":") = size z + size u + size x + size y + size w) by (rewrite <- app_assoc, !pos_app; lia).
    destruct (inserted_reads n _ _ _ _ f I K' F) as (g & G & C). pose proof (insertion_no_amendment n _ _ _ _ _ I K') as N. rewrite <- app_assoc in G, N.
    destruct (plain_reads w (i ++ f ++ u8 ":") P) as (Aa & st & S). exact (at_place z u a x y m' w _ st None (Some g) g o n true Z V A eq_refl Aa S (or_intror (conj N G)) C eq_refl).
  - set (n := Z.of_nat (length (z ++ u ++ x ++ y ++ w ++ u8 " " ++ i ++ f ++ u8 ":"))).
    assert (K : pos_of n (z ++ u ++ x ++ y ++ w ++ u8 " " ++ i ++ f ++ u8 ":") = 0) by (unfold pos_of, n; lia). rewrite !pos_app in K. change (size (u8 " ")) with 1 in K.
    destruct (amendment_reads n _ _ i [o] f I) as (g & G & C); [rewrite !pos_app; lia|exact F|].
    destruct (plain_reads w (i ++ f ++ u8 ":") P) as (Aa & st & S). exact (at_place z u a x y m' w _ st (Some g) None g o n false Z V A eq_refl Aa S (or_introl G) C eq_refl).
  - set (n := Z.of_nat (length (z ++ u ++ x ++ y ++ w ++ u8 " " ++ v ++ f ++ c ++ i ++ f' ++ u8 ":"))).
    assert (K : pos_of n (z ++ u ++ x ++ y ++ w ++ u8 " " ++ v ++ f ++ c ++ i ++ f' ++ u8 ":") = 0) by (unfold pos_of, n; lia). rewrite !pos_app in K. change (size (u8 " ")) with 1 in K.
    destruct (both_reads n a _ v _ f c _ i _ f' R F C J F') as (S1 & S2 & g1 & g2 & G & CG & CG'); [rewrite !pos_app; lia|rewrite !pos_app; lia|].
    destruct (plain_reads w (v ++ f ++ c ++ i ++ f' ++ u8 ":") P) as (Aa & st & S). destruct (joint_at_place z u a x y m' _ _ st _ _ n Z V A Aa S S1 S2 G) as (h & H & Y).
    change (32%N :: v ++ f ++ c ++ i ++ f' ++ u8 ":") with (u8 " " ++ v ++ f ++ c ++ i ++ f' ++ u8 ":") in Y. rewrite !pos_app in Y. change (size (u8 " ")) with 1 in Y. match type of Y with says_act _ ?p ?q _ _ => replace p with (size z + size u) in Y by lia; replace q with (size z + size u + size x) in Y by lia end.
    destruct (placed_ready _ _ _ _ _ _ _ _ _ _ _ _ (act_readable _ _ _ _ A) R J L) as (R1 & R2 & Ra & E).
    unfold grammar_analyzer, analyzer_of, grammar_parse. fold n. change (u8 " " ++ v ++ f ++ c ++ i ++ f' ++ u8 ":") with (32%N :: v ++ f ++ c ++ i ++ f' ++ u8 ":"). rewrite H. rewrite (both_converts a _ _ m' h g1 g2 _ _ Y CG CG').
    cbn [the_only joint_semantic joint_outgoing or_reference]. rewrite (proj1 (united_converts r r' g R1 R2 Ra E) q Un). cbn [bind]. change (without_act r') with (with_act None r'). rewrite E. now rewrite conversions_both.
Qed.
