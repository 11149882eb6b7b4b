(* Sentences about subtitles, read forwards. *)
From Coq Require Import Lia.
From Coq Require Import ZifyBool ZifyNat ZifyN.
From Verif Require Import PyBase PyBaseFacts UnicodeAlnum NumModel NumSpec NumProofs IdModel LineModel DateModel RefModel RefSpec TreeModel StructModel SemModel GramModel GramSpec PegModel PegSpec PegSpec2 PegSpec3 PegProofs PegProofs2 PegProofs5 PegProofs6 PegProofs7 PegProofs10 PegProofs13 PegProofs14 PegProofs22 PegProofs23 PegProofs24 PegProofs25 PegProofs29 PegProofs30 PegProofs33 PegProofs34 PegProofs37 DivSpec DivProofs DivProofs2 SubSpec.
Local Open Scope Z_scope.

(** * Places *)

Lemma shape_head i : article_shape i -> exists c t, i = c :: t /\ c_09 c = true.
Proof.
  assert (D : forall n r, digits n -> exists c t, n ++ r = c :: t /\ c_09 c = true).
  { intros n r [N F]. destruct n as [|c n]; [contradiction|]. inversion F; subst. exists c, (n ++ r). split; [reflexivity|]. unfold c_09. lia. }
  intros [n N|n c N _|b n B _|b n c B _ _]; [destruct (D n [] N) as (c & t & E & C); rewrite app_nil_r in E; eauto|now apply D|now apply D|now apply D].
Qed.
Lemma group_reads i s : article_shape i -> exists l, g_article_id_group (i ++ 46%N :: s) = Some (l, 46%N :: s) /\ concat l = i.
Proof.
  intros I. destruct (article_reads i (46%N :: s) I (stop_dot s)) as (l & E & C). exists l. split; [|exact C]. unfold g_article_id, p_rule in E. destruct (shape_head i I) as (c & t & H & D).
  replace (ws (i ++ 46%N :: s)) with (i ++ 46%N :: s) in E by (rewrite H; symmetry; apply ws_solid_head; now apply digit_space). exact E.
Qed.
Definition article_text (z i e v : pystr) : pystr := z ++ i ++ u8 ". §" ++ e ++ u8 " " ++ v.
Lemma chapter_opt c z i s : chapter_before c -> In z [[]; u8 "a "; u8 "az "] -> article_shape i -> exists o, p_opt g_chapter_number (32%N :: c ++ z ++ i ++ s) = Some (o, 32%N :: z ++ i ++ s).
Proof.
  intros C Z I. destruct (shape_head i I) as (h & t & H & D). destruct C as [->|(w & j & e & N & E & ->)].
  - exists None. apply opt_no. cbn [app]. unfold g_chapter_number. rewrite rule_space by reflexivity. destruct Z as [<-|[<-|[<-|[]]]]; [|reflexivity|reflexivity]. cbn [app]. rewrite H. cbn [app]. unfold p_rule. pose proof (digit_space h D) as W. rewrite ws_solid_head by exact W.
    apply bind_no. unfold g_id_with_letter, g_roman. apply bind_no. unfold p_rule. rewrite ws_solid_head by exact W. rewrite re_plus. unfold c_09 in D. assert (R : c_roman h = false). { destruct (c_roman h) eqn:R; [|reflexivity]. apply roman_only in R. cbn in R. lia. } now rewrite R.
  - destruct (numeral_reads w j (32%N :: u8 "Fejezet" ++ e ++ 32%N :: z ++ i ++ s) N) as (l & L & _). destruct (unit_reads_after (u8 "Fejezet") e (32%N :: z ++ i ++ s) eq_refl E (gap_space _)) as (x & X).
    destruct (roman_begins w j (32%N :: u8 "Fejezet" ++ e ++ 32%N :: z ++ i ++ s) N) as (c & d & q & Q & In' & _). eexists. apply opt_yes. unfold g_chapter_number. rewrite rule_space by reflexivity.
    replace ((w ++ u8 ". Fejezet" ++ e ++ u8 " ") ++ z ++ i ++ s) with (w ++ 46%N :: 32%N :: u8 "Fejezet" ++ e ++ 32%N :: z ++ i ++ s) by (now rewrite <- !app_assoc).
    unfold p_rule. rewrite Q, ws_solid_head by now apply roman_solid. rewrite <- Q. rewrite (bind_yes _ _ _ _ _ L), (bind_yes _ _ _ _ _ (dot_reads _)), (bind_yes _ _ _ _ _ X). reflexivity.
Qed.
Lemma before_toks {A} z i e s (q : list pystr -> parser A) : In z [[]; u8 "a "; u8 "az "] -> article_shape i -> sign_ending e -> gap s -> exists l, concat l = i /\
  p_rule (p_opt g_az ;~ j <~ g_article_id_group ;; p_tok (u8 ".") ;~ g_article_suffix ;~ q j) (32%N :: z ++ i ++ u8 ". §" ++ e ++ s) = q l s.
Proof.
  intros Z I E G. destruct (group_reads i (32%N :: u8 "§" ++ e ++ s) I) as (l & L & C). destruct (sign_yes e s E G) as (x & X). exists l. split; [exact C|]. destruct (shape_head i I) as (h & t & H & D). pose proof (digit_space h D) as W.
  rewrite rule_space by reflexivity. unfold p_rule. assert (F : exists o, p_opt g_az (ws (z ++ i ++ u8 ". §" ++ e ++ s)) = Some (o, i ++ 46%N :: 32%N :: u8 "§" ++ e ++ s)).
  { destruct Z as [<-|[<-|[<-|[]]]]; [|eexists; reflexivity|eexists; reflexivity]. exists None. cbn [app]. rewrite H. cbn [app]. rewrite ws_solid_head by exact W. apply opt_no. unfold g_az, p_rule. rewrite ws_solid_head by exact W.
    unfold p_re. cbn [r_match]. cbn [after_prefix]. destruct (N.eqb_spec 97 h) as [<-|_]; [discriminate D|reflexivity]. }
  destruct F as (o & F). rewrite (bind_yes _ _ _ _ _ F), (bind_yes _ _ _ _ _ L), (bind_yes _ _ _ _ _ (dot_reads _)).
  rewrite (bind_yes _ _ _ x s); [reflexivity|]. unfold g_article_suffix in *. rewrite rule_space by reflexivity. exact X.
Qed.
Lemma place_reads a w r s : place_written a w r -> exists d, g_structural_position (32%N :: w ++ 32%N :: s) = Some (d, 32%N :: s) /\ convert_structural_reference a d = Ok r.
Proof.
  intros [c z i e v t C Z I E V]. set (q := 32%N :: v ++ 32%N :: s). replace ((c ++ z ++ i ++ u8 ". §" ++ e ++ u8 " " ++ v) ++ 32%N :: s) with (c ++ z ++ i ++ u8 ". §" ++ e ++ q) by (unfold q; now rewrite <- !app_assoc).
  destruct (chapter_opt c z i (u8 ". §" ++ e ++ q) C Z I) as (o & O).
  destruct (before_toks z i e q (fun j => p_toks [u8 "követően"; u8 "követő"] ;~ p_ret (GAfterArticle j)) Z I E (gap_space _)) as (l & L & A).
  destruct (before_toks z i e q (fun j => p_toks [u8 "megelőzően"; u8 "megelőző"] ;~ p_ret (GBeforeArticle j)) Z I E (gap_space _)) as (l' & L' & B).
  assert (Af : g_structural_position (32%N :: c ++ z ++ i ++ u8 ". §" ++ e ++ q) = match (p_toks [u8 "követően"; u8 "követő"] ;~ p_ret (GAfterArticle l)) q with Some x => Some x | None => match (p_toks [u8 "megelőzően"; u8 "megelőző"] ;~ p_ret (GBeforeArticle l')) q with Some x => Some x | None => g_division (32%N :: c ++ z ++ i ++ u8 ". §" ++ e ++ q) end end).
  { unfold g_structural_position. fold g_division. destruct ((p_toks [u8 "követően"; u8 "követő"] ;~ p_ret (GAfterArticle l)) q) as [[y k]|] eqn:K.
    - do 2 apply or_yes. rewrite (bind_yes _ _ _ _ _ O). exact A.
    - destruct ((p_toks [u8 "megelőzően"; u8 "megelőző"] ;~ p_ret (GBeforeArticle l')) q) as [[y' k']|] eqn:K'.
      + apply or_yes. rewrite or_no; [rewrite (bind_yes _ _ _ _ _ O); exact B|rewrite (bind_yes _ _ _ _ _ O); exact A].
      + rewrite or_no; [reflexivity|]. rewrite or_no; (rewrite (bind_yes _ _ _ _ _ O); [exact B||exact A]). }
  rewrite Af. unfold q. destruct V as [V|[V|[V|[V|[]]]]]; injection V as <- <-; (eexists; split; [reflexivity|]; cbn [convert_structural_reference]; rewrite ?L, ?L'; reflexivity).
Qed.

(** * What may stand after the name of an act *)

Definition after_act (s : pystr) : Prop := gap s /\ no_bracket s /\ no_more s /\ p_tok in_effect s = None.
Lemma solid_after_act c t : isspace_chr c = false -> c <> 40%N -> ~ In c (u8 "tvh") -> after_act (32%N :: c :: t).
Proof.
  intros W B L. assert (E : lc (32%N :: c :: t) = c) by (rewrite lc_space by reflexivity; now apply lc_solid). split; [apply gap_space|]. split; [left; now rewrite E|]. split.
  - intros e r I H. cbn in I, L. repeat (destruct I as [<-|I]; [cbn in H; first [discriminate H|injection H as H _; apply L; rewrite H; tauto]|]). destruct I.
  - apply tok_no. rewrite E. intros ->. apply L. cbn. tauto.
Qed.
Lemma digit_after_act c t : c_09 c = true -> after_act (32%N :: c :: t).
Proof. intros D. apply solid_after_act; [now apply digit_space| |]; unfold c_09 in D; [lia|cbn; lia]. Qed.
Lemma roman_after_act c t : In c NumSpec.roman_letters -> after_act (32%N :: c :: t).
Proof. intros D. apply solid_after_act; [now apply roman_solid| |]; cbn in D |- *; lia. Qed.
Lemma place_after_act a w r s : place_written a w r -> after_act (32%N :: w ++ s).
Proof.
  intros [c z i e v t C Z I E V]. destruct (shape_head i I) as (h & q & H & D). rewrite <- !app_assoc. destruct C as [->|(n & j & k & N & _ & ->)].
  - destruct Z as [<-|[<-|[<-|[]]]]; [rewrite H; now apply digit_after_act| |]; (apply solid_after_act; [reflexivity|discriminate|cbn; intuition discriminate]).
  - rewrite <- !app_assoc. edestruct (roman_begins n j) as (c & d & p & P & In' & _); [exact N|]. cbn [app]. erewrite P. now apply roman_after_act.
Qed.

Section Total.
Variable total : Z.
Lemma subtitle_found t s g st r am ins :
  ws t = t -> g_the_act total t = Some (g, s) -> p_opt g_structural_position s = Some (st, r) ->
  (forall x q, g_reference_rule total r = Some (x, q) -> g_amendment_suffix q = None) -> (forall x q, g_insertion_reference total r = Some (x, q) -> g_insertion_suffix q = None) ->
  ((x <~ g_reference_with_subtitle total ;; g_amendment_suffix ;~ p_tok (u8 ":") ;~ p_ret (Some x, None))
    <|> (x <~ g_reference_with_subtitle total ;; g_amendment_suffix_with_subtitle ;~ p_tok (u8 ":") ;~ p_ret (Some x, None))
    <|> (g_insertion_token ;~ x <~ g_reference_with_subtitle total ;; g_insertion_suffix ;~ p_tok (u8 ":") ;~
         p_ret (None, Some x))) r = Some ((am, ins), []) ->
  g_start total t = Some (node_with_act (fun a => GBlockAmendmentWithSubtitle a st am ins) g, []).
Proof.
  intros W A P R J S. unfold g_start, p_rule at 1. rewrite W. do 7 apply or_yes. rewrite or_no.
  - apply to_end. unfold g_block_amendment_with_subtitle, p_rule at 1. rewrite W, (bind_yes _ _ _ _ _ A), (bind_yes _ _ _ _ _ P). apply (map_yes (fun x => node_with_act (fun a => GBlockAmendmentWithSubtitle a st (fst x) (snd x)) g) _ _ (am, ins)). exact S.
  - unfold to_the_end. apply bind_no. unfold g_block_amendment, p_rule at 1. rewrite W, (bind_yes _ _ _ _ _ A), (bind_yes _ _ _ _ _ P). apply map_no.
    assert (N : forall A B (f : parser A) (h : parser B) (k : A -> parser (option g_reference * option g_reference)) , (forall x q, f r = Some (x, q) -> h q = None) -> (forall x, exists k', k x = h ;~ k') -> (x <~ f ;; k x) r = None).
    { intros A' B' f h k N K. unfold p_bind at 1. destruct (f r) as [[y q]|] eqn:E; [|reflexivity]. destruct (K y) as (k' & ->). apply bind_no. exact (N _ _ eq_refl). }
    rewrite or_no; [apply (N _ _ _ g_amendment_suffix); [exact R|intros y; eexists; reflexivity]|]. rewrite or_no; [apply (N _ _ _ g_insertion_suffix); [exact J|intros y; eexists; reflexivity]|]. apply (N _ _ _ g_amendment_suffix); [exact R|intros y; eexists; reflexivity].
Qed.

(** * Positions *)

Definition to_structural (a : pystr) (st : option g_structural) : res structural_reference :=
  match st with Some d => convert_structural_reference a d | None => Ok (of_act a) end.
Lemma position_reads a w r s : position_written a w r -> untitled (u8 " a következő" ++ s) -> gap s ->
  exists st, p_opt g_structural_position (w ++ u8 " a következő" ++ s) = Some (st, u8 " a következő" ++ s) /\ to_structural a st = Ok r.
Proof.
  intros P Us G. destruct P as [|w r P|w i e N E Uw].
  - exists None. split; [|reflexivity]. apply opt_no. cbn [app]. assert (T : g_subtitle_title (u8 " a következő" ++ s) = None) by exact (never_none _ g_subtitle_title (subtitle_title_never _ Us)).
    unfold g_structural_position. rewrite or_no; [|rewrite or_no; reflexivity]. rewrite or_no; [reflexivity|]. rewrite or_no; [reflexivity|]. rewrite or_no; [reflexivity|]. rewrite or_no; [exact T|reflexivity].
  - destruct (place_reads a w r (u8 "a következő" ++ s) P) as (d & R & C). exists (Some d). split; [|exact C]. apply opt_yes. exact R.
  - destruct (division_reads a (w ++ u8 ". Fejezet" ++ e) _ (u8 " a következő" ++ s) (dv_chapter a w i e N E) (gap_space _)) as (d & R & C).
    { intros _. apply (untitled_cut (w ++ u8 ". Fejezet" ++ e) 32 (u8 "a következő" ++ s)); [now left|exact Uw|]. intros (p & q & Q). apply Us. exists (32%N :: p), q. cbn [app]. cbn [app] in Q. now rewrite Q. }
    exists (Some d). split; [|exact C]. apply opt_yes. change ((u8 " " ++ w ++ u8 ". Fejezet" ++ e) ++ u8 " a következő" ++ s) with (32%N :: (w ++ u8 ". Fejezet" ++ e) ++ u8 " a következő" ++ s).
    unfold g_structural_position. fold g_division. rewrite or_no; [rewrite division_space; exact R|].
    assert (O : exists o, p_opt g_chapter_number (32%N :: (w ++ u8 ". Fejezet" ++ e) ++ u8 " a következő" ++ s) = Some (o, u8 " a következő" ++ s)).
    { destruct (numeral_reads w i (32%N :: u8 "Fejezet" ++ e ++ u8 " a következő" ++ s) N) as (l & L & _). destruct (unit_reads_after (u8 "Fejezet") e (u8 " a következő" ++ s) eq_refl E (gap_space _)) as (x & X).
      destruct (roman_begins w i (32%N :: u8 "Fejezet" ++ e ++ u8 " a következő" ++ s) N) as (c & k & q & Q & In' & _). eexists. apply opt_yes. unfold g_chapter_number. rewrite rule_space by reflexivity.
      replace ((w ++ u8 ". Fejezet" ++ e) ++ u8 " a következő" ++ s) with (w ++ 46%N :: 32%N :: u8 "Fejezet" ++ e ++ u8 " a következő" ++ s) by (now rewrite <- !app_assoc).
      unfold p_rule. rewrite Q, ws_solid_head by now apply roman_solid. rewrite <- Q. rewrite (bind_yes _ _ _ _ _ L), (bind_yes _ _ _ _ _ (dot_reads _)), (bind_yes _ _ _ _ _ X). reflexivity. }
    destruct O as (o & O). rewrite or_no; rewrite (bind_yes _ _ _ _ _ O); reflexivity.
Qed.
Lemma position_after_act a w r s : position_written a w r -> after_act (w ++ u8 " a következő" ++ s).
Proof.
  intros [|v q P|v i e N E _].
  - apply solid_after_act; [reflexivity|discriminate|cbn; intuition discriminate].
  - exact (place_after_act a v q _ P).
  - edestruct (roman_begins v i) as (c & d & p & P & In' & _); [exact N|]. rewrite <- !app_assoc. cbn [app]. erewrite P. now apply roman_after_act.
Qed.
End Total.

(** * Sentences *)

Lemma subtitle_endings f n : subtitle_ending f -> forall t, subtitle_word t -> (exists q, t ++ f ++ u8 ":" = 32%N :: q) /\ g_reference_rule n (t ++ f ++ u8 ":") = None /\ g_insertion_reference n (t ++ f ++ u8 ":") = None /\
  exists sp, ((x <~ g_reference_with_subtitle n ;; g_amendment_suffix ;~ p_tok (u8 ":") ;~ p_ret (Some x, None))
    <|> (x <~ g_reference_with_subtitle n ;; g_amendment_suffix_with_subtitle ;~ p_tok (u8 ":") ;~ p_ret (Some x, None))
    <|> (g_insertion_token ;~ x <~ g_reference_with_subtitle n ;; g_insertion_suffix ;~ p_tok (u8 ":") ;~
         p_ret (None, Some x))) (t ++ f ++ u8 ":") = Some ((Some (mk_greference [] sp), None), []).
Proof.
  intros F t W. assert (I : In f [u8 " helyébe a következő rendelkezés lép"; u8 " helyébe a következő rendelkezések lépnek"; u8 " a következő szöveggel lép hatályba"; u8 " helyébe a következő alcím lép"; u8 " helyébe a következő alcím és rendelkezés lép"; u8 " helyébe a következő rendelkezés és alcím lép"; u8 " helyébe a következő alcím lépnek"]).
  { destruct F as [[<-|[<-|[<-|[]]]]|[<-|[<-|[<-|[<-|[]]]]]]; cbn; tauto. } clear F.
  repeat (destruct W as [<-|W]; [repeat (destruct I as [<-|I]; [split; [eexists; reflexivity|split; [reflexivity|split; [reflexivity|eexists; reflexivity]]]|]); destruct I|]). destruct W.
Qed.
Lemma empty_converts a sp : convert_potential_reference a (Some (mk_greference [] sp)) = Ok (Some (act_only a)).
Proof. reflexivity. Qed.
Lemma article_converts a p g i sp : says_part PArticle p g -> first_of p i -> exists r, convert_potential_reference a (Some (mk_greference [g] sp)) = Ok (Some r) /\ r_act r = Some a /\ (r_article r = RId i \/ exists j, r_article r = RRange i j).
Proof.
  intros P [->|(j & ->)]; cbn [says_part] in P.
  - destruct P as (l & q & -> & <-). eexists. split; [cbv; reflexivity|]. split; [reflexivity|now left].
  - destruct P as (l & l' & q & -> & <- & <-). eexists. split; [cbv; reflexivity|]. split; [reflexivity|right; eexists; reflexivity].
Qed.
Lemma act_start z u x y s : article_word z -> ws (z ++ u ++ x ++ y ++ s) = z ++ u ++ x ++ y ++ s.
Proof. intros Z. unfold article_word in Z. destruct Z as [<-|[<-|[<-|[<-|[]]]]]; reflexivity. Qed.
Lemma insertion_found z u a x y m w r f : article_word z -> title_words u -> act_written a x y m -> position_written a w r -> insertion_ending f ->
  grammar_analyzer (z ++ u ++ x ++ y ++ w ++ u8 " a következő alcímmel" ++ f ++ u8 ":") = Some (mk_analysis [] [BlockAmendment (ASRef r) true] m).
Proof.
  intros Z V A P F. set (T := z ++ u ++ x ++ y ++ w ++ u8 " a következő alcímmel" ++ f ++ u8 ":"). set (n := Z.of_nat (length T)).
  destruct (position_after_act a w r (u8 " alcímmel" ++ f ++ u8 ":") P) as (G1 & G2 & G3 & G4).
  destruct (the_act_reads n z u a x y m _ Z V A G1 G2 G3 G4) as (g & H & Y). destruct (act_says _ _ _ _ _ Y) as [Ya _].
  assert (Us : untitled (u8 " a következő alcímmel" ++ f ++ u8 ":")) by (apply untitled_check; destruct F as [<-|[<-|[]]]; reflexivity). 
  destruct (position_reads a w r (u8 " alcímmel" ++ f ++ u8 ":") P Us (gap_space _)) as (st & S & C).
  assert (X : exists sp, g_start n T = Some (node_with_act (fun a => GBlockAmendmentWithSubtitle a st None (Some (mk_greference [] sp))) g, [])).
  { assert (J : exists sp, ((x <~ g_reference_with_subtitle n ;; g_amendment_suffix ;~ p_tok (u8 ":") ;~ p_ret (Some x, None))
      <|> (x <~ g_reference_with_subtitle n ;; g_amendment_suffix_with_subtitle ;~ p_tok (u8 ":") ;~ p_ret (Some x, None))
      <|> (g_insertion_token ;~ x <~ g_reference_with_subtitle n ;; g_insertion_suffix ;~ p_tok (u8 ":") ;~ p_ret (None, Some x))) (u8 " a következő alcímmel" ++ f ++ u8 ":") = Some ((None, Some (mk_greference [] sp)), [])) by (destruct F as [<-|[<-|[]]]; eexists; reflexivity).
    destruct J as (sp & J). exists sp. eapply subtitle_found; [now apply act_start|exact H|exact S| | |exact J]; (destruct F as [<-|[<-|[]]]; intros ? ? X; discriminate X). }
  destruct X as (sp & X). eapply node_found; [exact X|exact Y|]. cbn [convert_single_node]. unfold subtitle_to_block. rewrite Ya. cbn [bind]. fold (of_act a). unfold to_structural in C. rewrite C. reflexivity.
Qed.
Lemma together_found z u a x y m w r p i k f : article_word z -> title_words u -> act_written a x y m -> position_written a w r -> part_written PArticle p k -> first_of p i -> untitled k -> insertion_ending f ->
  grammar_analyzer (z ++ u ++ x ++ y ++ w ++ u8 " a következő alcímmel és " ++ k ++ f ++ u8 ":") = Some (mk_analysis [] [BlockAmendment (ASRef (at_article a BEFORE_WITH_ARTICLE i)) true] m).
Proof.
  intros Z V A P K I Uk F. set (T := z ++ u ++ x ++ y ++ w ++ u8 " a következő alcímmel és " ++ k ++ f ++ u8 ":"). set (n := Z.of_nat (length T)). set (s := u8 " és " ++ k ++ f ++ u8 ":").
  destruct (position_after_act a w r (u8 " alcímmel" ++ s) P) as (G1 & G2 & G3 & G4).
  destruct (the_act_reads n z u a x y m _ Z V A G1 G2 G3 G4) as (g & H & Y). destruct (act_says _ _ _ _ _ Y) as [Ya _]. destruct (insertion_endings f F) as (G & _ & _ & e & E).
  assert (Us : untitled (u8 " a következő alcímmel" ++ s)).
  { apply (untitled_cut (u8 " a következő alcímmel és") 32 (k ++ f ++ u8 ":")); [now left|apply untitled_check; reflexivity|]. assert (Q : exists q, f ++ u8 ":" = 32%N :: q /\ untitled q) by (destruct F as [<-|[<-|[]]]; eexists; (split; [reflexivity|apply untitled_check; reflexivity])).
    destruct Q as (q & -> & Q). apply untitled_cut; [now left|exact Uk|exact Q]. }
  destruct (position_reads a w r (u8 " alcímmel" ++ s) P Us (gap_space _)) as (st & S & C).
  assert (D : ~ is_dash (lc (f ++ u8 ":"))) by (destruct F as [<-|[<-|[]]]; unfold is_dash; cbn; intuition discriminate).
  destruct (part_reads n PArticle p k (f ++ u8 ":") K G D) as (q & R & Q). cbn [part_parser] in R.
  assert (X : exists sp, g_start n T = Some (node_with_act (fun a => GBlockAmendmentWithSubtitle a st None (Some (mk_greference [q] sp))) g, [])).
  { eexists. eapply subtitle_found; [now apply act_start|exact H|exact S|intros ? ? X; discriminate X|intros ? ? X; discriminate X|].
    rewrite or_no; [|rewrite or_no; reflexivity]. rewrite (bind_yes _ _ _ (u8 "a következő") (u8 " alcímmel" ++ s)) by reflexivity.
    assert (Rs : g_reference_with_subtitle n (u8 " alcímmel" ++ s) = Some (mk_greference [q] (pos_of n (u8 "alcímmel" ++ s), pos_of n (f ++ u8 ":")), f ++ u8 ":")).
    { unfold g_reference_with_subtitle, reference_of. apply (map_yes (fun x => mk_greference (fst x) (snd x)) _ _ ([q], _) _). unfold p_span. change (ws (u8 " alcímmel" ++ s)) with (u8 "alcímmel" ++ s).
      match goal with |- match ?p _ with _ => _ end = _ => assert (B : p (u8 "alcímmel" ++ s) = Some ([q], f ++ u8 ":")) end; [|now rewrite B].
      do 2 apply or_yes. rewrite (bind_yes _ _ _ tt s) by reflexivity. unfold s. rewrite (bind_yes _ _ _ (u8 "és") (u8 " " ++ k ++ f ++ u8 ":")) by reflexivity.
      unfold one_part. apply (map_yes (fun x => [x])). unfold g_article_reference, g_part_rule in *. change (u8 " " ++ k ++ f ++ u8 ":") with (32%N :: k ++ f ++ u8 ":"). rewrite rule_space by reflexivity. exact R. }
    rewrite (bind_yes _ _ _ _ _ Rs), (bind_yes _ _ _ _ _ E). reflexivity. }
  destruct X as (sp & X). destruct (article_converts a p q i sp Q I) as (rr & R1 & R2 & R3).
  eapply node_found; [exact X|exact Y|]. cbn [convert_single_node]. unfold subtitle_to_block. rewrite Ya. cbn [bind]. fold (of_act a). unfold to_structural in C. rewrite C. cbn [bind]. rewrite R1. cbn [bind convert_potential_reference convert_potential_in_text_reference option_map]. unfold subtitle_block.
  destruct R3 as [R3|(j & R3)]; rewrite R3, R2; reflexivity.
Qed.
Lemma replaced_found z u a x y m w r t f : article_word z -> title_words u -> act_written a x y m -> place_written a w r -> subtitle_word t -> subtitle_ending f ->
  grammar_analyzer (z ++ u ++ x ++ y ++ u8 " " ++ w ++ t ++ f ++ u8 ":") = Some (mk_analysis [] [BlockAmendment (ASRef r) false] m).
Proof.
  intros Z V A P W F. set (T := z ++ u ++ x ++ y ++ u8 " " ++ w ++ t ++ f ++ u8 ":"). set (n := Z.of_nat (length T)).
  destruct (subtitle_endings f n F t W) as ((q & Q) & E1 & E2 & sp & E3).
  destruct (place_after_act a w r (t ++ f ++ u8 ":") P) as (G1 & G2 & G3 & G4). destruct (the_act_reads n z u a x y m _ Z V A G1 G2 G3 G4) as (g & H & Y). destruct (act_says _ _ _ _ _ Y) as [Ya _].
  destruct (place_reads a w r q P) as (d & R & C). rewrite <- Q in R.
  assert (X : g_start n T = Some (node_with_act (fun a => GBlockAmendmentWithSubtitle a (Some d) (Some (mk_greference [] sp)) None) g, [])).
  { eapply subtitle_found; [now apply act_start|exact H|apply opt_yes; exact R|rewrite E1; discriminate|rewrite E2; discriminate|exact E3]. }
  eapply node_found; [exact X|exact Y|]. cbn [convert_single_node]. unfold subtitle_to_block. rewrite Ya. cbn [bind]. rewrite C. reflexivity.
Qed.
