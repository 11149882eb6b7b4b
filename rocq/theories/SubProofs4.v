(* Subtitles named by their titles, read forwards. *)
From Coq Require Import Lia.
From Coq Require Import ZifyBool ZifyNat ZifyN.
From Verif Require Import PyBase PyBaseFacts UnicodeAlnum NumModel NumSpec NumProofs IdModel LineModel DateModel RefModel RefSpec TreeModel StructModel SemModel GramModel GramSpec PegModel PegSpec PegSpec2 PegSpec3 PegProofs PegProofs2 PegProofs5 PegProofs6 PegProofs7 PegProofs10 PegProofs13 PegProofs14 PegProofs22 PegProofs23 PegProofs24 PegProofs25 PegProofs29 PegProofs30 PegProofs33 PegProofs34 PegProofs36 PegProofs37 DivSpec DivProofs DivProofs2 SubSpec SubProofs SubProofs2 SubProofs3.
Local Open Scope Z_scope.

Lemma titled_reads q t s : plain_quote q -> titled_word t -> s = u8 "." \/ (exists r, s = 32%N :: r) -> g_subtitle_title (32%N :: quoted q ++ t ++ s) = Some (GSubtitleTitle None (Some (quote_tree q)), s).
Proof.
  intros P W G. unfold g_subtitle_title. rewrite rule_space by reflexivity. unfold p_rule. rewrite quoted_solid.
  rewrite (bind_yes _ _ _ (GSubtitleTitle None (Some (quote_tree q))) (t ++ s)).
  - destruct G as [->|(r & ->)]; destruct W as [<-|[<-|[]]]; reflexivity.
  - apply or_yes. apply (map_yes (fun q => GSubtitleTitle None (Some q))). apply quote_reads; [exact P|apply quoted_solid].
Qed.
Lemma titled_division q t s : plain_quote q -> titled_word t -> s = u8 "." \/ (exists r, s = 32%N :: r) ->
  g_division (32%N :: quoted q ++ t ++ s) = Some (GSubtitleTitle None (Some (quote_tree q)), s) /\ g_structural_position (32%N :: quoted q ++ t ++ s) = Some (GSubtitleTitle None (Some (quote_tree q)), s) /\
  g_any_structural_reference (32%N :: quoted q ++ t ++ s) = Some (GSubtitleTitle None (Some (quote_tree q)), s).
Proof.
  intros P W G. pose proof (titled_reads q t s P W G) as R.
  assert (D : g_division (32%N :: quoted q ++ t ++ s) = Some (GSubtitleTitle None (Some (quote_tree q)), s)) by (unfold g_division; do 3 apply or_yes; rewrite or_no; [exact R|reflexivity]).
  split; [exact D|]. split.
  - unfold g_structural_position. fold g_division. rewrite or_no; [exact D|]. rewrite or_no; reflexivity.
  - unfold quoted in *. rewrite <- app_assoc in *. cbn [app] in *. rewrite any_division by (do 2 eexists; split; reflexivity). rewrite <- division_space. exact D.
Qed.
Lemma title_after_act q s : after_act (32%N :: quoted q ++ s).
Proof. unfold quoted. cbn [app]. apply solid_after_act; [reflexivity|discriminate|cbn; intuition discriminate]. Qed.
Lemma title_converts a q : convert_structural_reference a (GSubtitleTitle None (Some (quote_tree q))) = Ok (of_subtitle a q).
Proof. cbn [convert_structural_reference]. now rewrite quote_string. Qed.
Lemma titled_found z u a x y m q t f : article_word z -> title_words u -> act_written a x y m -> plain_quote q -> titled_word t -> division_ending f ->
  grammar_analyzer (z ++ u ++ x ++ y ++ u8 " " ++ quoted q ++ t ++ f ++ u8 ":") = Some (mk_analysis [] [BlockAmendment (ASRef (of_subtitle a q)) false] m).
Proof.
  intros Z V A P W F. set (T := z ++ u ++ x ++ y ++ u8 " " ++ quoted q ++ t ++ f ++ u8 ":"). set (n := Z.of_nat (length T)).
  destruct (division_endings f F) as (G & Mf & Uf & Nf & Jf & Sf).
  assert (Q : exists b, f ++ u8 ":" = 32%N :: b) by (destruct F as [[<-|[<-|[<-|[]]]]|[<-|[<-|[<-|[<-|[]]]]]]; eexists; reflexivity).
  destruct (title_after_act q (t ++ f ++ u8 ":")) as (G1 & G2 & G3 & G4). destruct (the_act_reads n z u a x y m _ Z V A G1 G2 G3 G4) as (g & H & Y). destruct (act_says _ _ _ _ _ Y) as [Ya _].
  destruct (titled_division q t (f ++ u8 ":") P W (or_intror Q)) as (Rd & Rp & An).
  eapply node_found; [|exact Y|].
  - fold n. apply (structural_found n T _ g (Some (GSubtitleTitle None (Some (quote_tree q)))) None (act_start z u x y _ Z) H).
    + intros st. eexists. exists (f ++ u8 ":"). split; [apply opt_yes; exact Rp|]. split; [now apply block_none|now apply with_subtitle_none].
    + do 2 apply or_yes. destruct Sf as [(e & E)|(E & e & E')].
      * apply or_yes. rewrite (bind_yes _ _ _ _ _ An), (bind_yes _ _ _ _ _ E). reflexivity.
      * rewrite or_no; [|rewrite (bind_yes _ _ _ _ _ An); now apply bind_no]. rewrite (bind_yes _ _ _ _ _ An), (bind_yes _ _ _ _ _ E'). reflexivity.
  - cbn [convert_single_node]. unfold structural_to_block. rewrite Ya. cbn [bind]. rewrite title_converts. reflexivity.
Qed.
Lemma quote_reference n q s : g_reference_rule n (32%N :: quoted q ++ s) = None.
Proof. reflexivity. Qed.
Lemma title_repealed_found h z u a x y m q t k : In h [u8 "Nem lép hatályba"; u8 "Hatályát veszti"] -> quote_article z -> words u -> spaced u -> act_written a x y m -> k = size h + size z + size u ->
  plain_quote q -> titled_word t ->
  grammar_analyzer (h ++ z ++ u ++ x ++ y ++ u8 " " ++ quoted q ++ t ++ u8 ".") = Some (mk_analysis [mk_outgoing k (k + size x) (act_only a)] [Repeal (ASRef (of_subtitle a q)) None] m).
Proof.
  intros Hw Z Wu Su A K P Wt. set (T := h ++ z ++ u ++ x ++ y ++ u8 " " ++ quoted q ++ t ++ u8 "."). set (n := Z.of_nat (length T)). set (w := quoted q). set (s := w ++ t ++ u8 ".").
  destruct (title_after_act q (t ++ u8 ".")) as (G1 & G2 & G3 & G4). fold w in G1, G2, G3, G4.
  destruct (repealed_reads n h z u a x y m (32%N :: s) Hw Z Wu Su A G1 G2 G3 G4) as (g & H & Y).
  destruct (titled_division q t (u8 ".") P Wt (or_introl eq_refl)) as (_ & R & _). set (d := GSubtitleTitle None (Some (quote_tree q))) in *. pose proof (title_converts a q : convert_structural_reference a d = _) as Cd.
  assert (W : ws T = T) by (unfold T in *; destruct Hw as [<-|[<-|[]]]; reflexivity).
  assert (Pos : says_act a k (k + size x) m g).
  { destruct Y as (Y1 & Y2 & Y3). split; [exact Y1|]. split; [|exact Y3]. rewrite Y2. f_equal. f_equal; subst k n T s w; unfold pos_of, size; rewrite !app_length; cbn [length]; rewrite ?app_length; cbn [length]; lia. }
  destruct (act_says _ _ _ _ _ Pos) as [Ya Yp].
  assert (NA : g_the_act n T = None). { unfold g_the_act. apply bind_no. unfold T in *. destruct Hw as [<-|[<-|[]]]; reflexivity. }
  assert (SR : g_structural_repeal n T = Some (node_with_act (fun a => GStructuralRepeal a d) g, [])).
  { unfold g_structural_repeal, p_rule at 1. rewrite W. change T with (h ++ z ++ u ++ x ++ y ++ 32%N :: s). rewrite (bind_yes _ _ _ _ _ H), (bind_yes _ _ _ _ _ R). reflexivity. }
  eapply node_found; [|exact Pos|].
  - fold n. unfold g_start, p_rule at 1. apply or_yes. rewrite or_no; [apply to_end; rewrite W; exact SR|]. rewrite W.
    rewrite or_no. { unfold to_the_end. apply bind_no. unfold g_repeal, p_rule at 1. rewrite W. change T with (h ++ z ++ u ++ x ++ y ++ 32%N :: s). rewrite (bind_yes _ _ _ _ _ H). apply bind_no, many1_no. unfold g_listed_reference. apply bind_no. apply quote_reference. }
    rewrite or_no; [unfold to_the_end, g_enforcement_date, p_rule; apply bind_no; rewrite W; apply bind_no; unfold T in *; destruct Hw as [<-|[<-|[]]]; reflexivity|].
    rewrite or_no; [unfold to_the_end, g_article_title_amendment, p_rule at 1; apply bind_no; rewrite W; now apply bind_no|].
    rewrite or_no; [unfold to_the_end, g_text_amendment, p_rule at 1; apply bind_no; rewrite W; now apply bind_no|].
    rewrite or_no; [unfold to_the_end, g_block_amendment_structural, p_rule at 1; apply bind_no; rewrite W; now apply bind_no|].
    rewrite or_no; [unfold to_the_end, g_block_amendment_with_subtitle, p_rule at 1; apply bind_no; rewrite W; now apply bind_no|].
    unfold to_the_end, g_block_amendment, p_rule at 1; apply bind_no; rewrite W; now apply bind_no.
  - cbn [convert_single_node]. unfold structural_repeal_to_repeal, act_outgoing. rewrite Ya, Yp. cbn [bind]. rewrite Cd. reflexivity.
Qed.
Lemma subtitled_found text refs sd m : subtitled text refs sd m -> grammar_analyzer text = Some (mk_analysis refs [sd] m).
Proof.
  intros [z u a x y m' w r f Z V A P F|z u a x y m' w r p i k f Z V A P K I Uk F|z u a x y m' w r t f Z V A P W F|z u a x y m' w r p i k v f Z V A P K I Uk Pv F|z u a x y m' p i k v t f Z V A K I Uk Pv Wt Ut F|h z u a x y m' w r t k Hh Z Wu Su A K P Wt|z u a x y m' q t f Z V A P W F|h z u a x y m' q t k Hh Z Wu Su A K P Wt];
    [now apply insertion_found with (a := a)|now apply together_found with (r := r) (p := p)|now apply replaced_found with (a := a)|now apply article_inserted_found with (r := r) (p := p)|now apply article_replaced_found with (p := p)|now apply place_repealed_found|now apply titled_found|now apply title_repealed_found].
Qed.
