(* Repeals of subtitles, read forwards. *)
From Coq Require Import Lia.
From Coq Require Import ZifyBool ZifyNat ZifyN.
From Verif Require Import PyBase PyBaseFacts UnicodeAlnum NumModel NumSpec NumProofs IdModel LineModel DateModel RefModel RefSpec TreeModel StructModel SemModel GramModel GramSpec PegModel PegSpec PegSpec2 PegSpec3 PegProofs PegProofs2 PegProofs5 PegProofs6 PegProofs7 PegProofs10 PegProofs13 PegProofs14 PegProofs22 PegProofs23 PegProofs24 PegProofs25 PegProofs29 PegProofs30 PegProofs33 PegProofs34 PegProofs37 DivSpec DivProofs DivProofs2 SubSpec SubProofs SubProofs2.
Local Open Scope Z_scope.

Lemma roman_reference n c s : In c NumSpec.roman_letters -> g_reference_rule n (32%N :: c :: s) = None.
Proof. intros I. cbn in I. repeat (destruct I as [<-|I]; [reflexivity|]). destruct I. Qed.
Lemma az_reference n c s : c_09 c = true -> g_reference_rule n (u8 " a " ++ c :: s) = None /\ g_reference_rule n (u8 " az " ++ c :: s) = None.
Proof. intros D. assert (I : In c (u8 "0123456789")) by (unfold c_09 in D; cbn; lia). cbn in I. repeat (destruct I as [<-|I]; [split; reflexivity|]). destruct I. Qed.
(* the reference in a place is none, or it is not the end of the sentence *)
Lemma place_reference n a w r t : place_written a w r -> subtitle_word t ->
  g_reference_rule n (32%N :: w ++ t ++ u8 ".") = None \/ exists x q, g_reference_rule n (32%N :: w ++ t ++ u8 ".") = Some (x, q) /\ g_separator q = Some (tt, q) /\ g_reference_rule n q = None /\
    p_many (p_opt g_az ;~ q <~ g_quote_rule ;; p_opt (p_tok (u8 "szövegrész")) ;~ g_separator ;~ p_ret q) q = Some ([], q) /\ p_tok (u8 ".") q = None.
Proof.
  intros [c z i e v o C Z I E V] W. destruct (shape_head i I) as (h & k & H & D). destruct C as [->|(b & j & l & N & _ & ->)].
  - cbn [app]. destruct Z as [<-|[<-|[<-|[]]]].
    + right. set (s := 32%N :: v ++ t ++ u8 "."). assert (P : part_written PArticle (RId i) ((i ++ u8 ".") ++ u8 " " ++ u8 "§" ++ e)) by (exists (i ++ u8 "."), e; split; [apply (iw_one PArticle); exact I|split; [exact E|reflexivity]]).
      assert (Q : (i ++ u8 ". §" ++ e ++ u8 " " ++ v) ++ t ++ u8 "." = ((i ++ u8 ".") ++ u8 " " ++ u8 "§" ++ e) ++ s) by (unfold s; rewrite <- !app_assoc; reflexivity).
      assert (S : ~ is_dash (lc s) /\ ref_with_paragraph n s = None /\ ref_with_point n s = None /\ g_separator s = Some (tt, s) /\ g_reference_rule n s = None /\ p_many (p_opt g_az ;~ q <~ g_quote_rule ;; p_opt (p_tok (u8 "szövegrész")) ;~ g_separator ;~ p_ret q) s = Some ([], s) /\ p_tok (u8 ".") s = None).
      { unfold s. clear - V W. destruct V as [V|[V|[V|[V|[]]]]]; injection V as <- _; (split; [unfold is_dash; cbn; intuition discriminate|]; repeat (destruct W as [<-|W]; [repeat split; vm_compute; reflexivity|]); destruct W). }
      destruct S as (S1 & S2 & S3 & S4). destruct (part_reads n PArticle (RId i) _ s P (gap_space _) S1) as (g & X & _). cbn [part_parser] in X.
      destruct (digit_reference n g s (RId i) _ P X S2 S3) as (x & R). exists x, s. split; [|exact S4]. cbn [app] in Q |- *. rewrite Q. exact R.
    + left. rewrite H. exact (proj1 (az_reference n h _ D)).
    + left. rewrite H. exact (proj2 (az_reference n h _ D)).
  - left. rewrite <- !app_assoc. edestruct (roman_begins b j) as (c & d & p & P & In' & _); [exact N|]. cbn [app]. erewrite P. now apply roman_reference.
Qed.
Lemma place_repealed_found h z u a x y m w r t k : In h [u8 "Nem lép hatályba"; u8 "Hatályát veszti"] -> quote_article z -> words u -> spaced u -> act_written a x y m -> k = size h + size z + size u ->
  place_written a w r -> subtitle_word t ->
  grammar_analyzer (h ++ z ++ u ++ x ++ y ++ u8 " " ++ w ++ t ++ u8 ".") = Some (mk_analysis [mk_outgoing k (k + size x) (act_only a)] [Repeal (ASRef r) None] m).
Proof.
  intros Hw Z Wu Su A K P Wt. set (T := h ++ z ++ u ++ x ++ y ++ u8 " " ++ w ++ t ++ u8 "."). set (n := Z.of_nat (length T)). set (s := w ++ t ++ u8 ".").
  destruct (place_after_act a w r (t ++ u8 ".") P) as (G1 & G2 & G3 & G4).
  destruct (repealed_reads n h z u a x y m (32%N :: s) Hw Z Wu Su A G1 G2 G3 G4) as (g & H & Y).
  assert (Ht : exists q, t ++ u8 "." = 32%N :: q) by (clear - Wt; repeat (destruct Wt as [<-|Wt]; [eexists; reflexivity|]); destruct Wt). destruct Ht as (q & Q).
  destruct (place_reads a w r q P) as (d & R & Cd). rewrite <- Q in R.
  assert (W : ws T = T) by (unfold T in *; destruct Hw as [<-|[<-|[]]]; reflexivity).
  assert (Pos : says_act a k (k + size x) m g).
  { destruct Y as (Y1 & Y2 & Y3). split; [exact Y1|]. split; [|exact Y3]. rewrite Y2. f_equal. f_equal; subst k n T s; unfold pos_of, size; rewrite !app_length; cbn [length]; rewrite ?app_length; cbn [length]; lia. }
  destruct (act_says _ _ _ _ _ Pos) as [Ya Yp].
  assert (NA : g_the_act n T = None). { unfold g_the_act. apply bind_no. unfold T in *. destruct Hw as [<-|[<-|[]]]; reflexivity. }
  assert (SR : g_structural_repeal n T = Some (node_with_act (fun a => GStructuralRepeal a d) g, [])).
  { unfold g_structural_repeal, p_rule at 1. rewrite W. change T with (h ++ z ++ u ++ x ++ y ++ 32%N :: s). rewrite (bind_yes _ _ _ _ _ H), (bind_yes _ _ _ _ _ R). rewrite (bind_yes _ _ _ (Some tt) (u8 ".")); [reflexivity|]. apply opt_yes. clear - Wt. repeat (destruct Wt as [<-|Wt]; [reflexivity|]). destruct Wt. }
  eapply node_found; [|exact Pos|].
  - fold n. unfold g_start, p_rule at 1. apply or_yes. rewrite or_no; [apply to_end; rewrite W; exact SR|]. rewrite W.
    rewrite or_no. { unfold to_the_end. apply bind_no. unfold g_repeal, p_rule at 1. rewrite W. change T with (h ++ z ++ u ++ x ++ y ++ 32%N :: s). rewrite (bind_yes _ _ _ _ _ H).
      destruct (place_reference n a w r t P Wt) as [F|(xr & qr & F & F1 & F2 & F3 & F4)].
      - apply bind_no, many1_no. unfold g_listed_reference. apply bind_no. exact F.
      - assert (L1 : g_listed_reference n (32%N :: s) = Some (xr, qr)) by (unfold g_listed_reference; rewrite (bind_yes _ _ _ _ _ F), (bind_yes _ _ _ _ _ F1); reflexivity).
        assert (L2 : g_listed_reference n qr = None) by (unfold g_listed_reference; now apply bind_no).
        rewrite (bind_yes _ _ _ _ _ (many1_one _ _ _ _ L1 L2)), (bind_yes _ _ _ _ _ F3). now apply bind_no. }
    rewrite or_no; [unfold to_the_end, g_enforcement_date, p_rule; apply bind_no; rewrite W; apply bind_no; unfold T in *; destruct Hw as [<-|[<-|[]]]; reflexivity|].
    rewrite or_no; [unfold to_the_end, g_article_title_amendment, p_rule at 1; apply bind_no; rewrite W; now apply bind_no|].
    rewrite or_no; [unfold to_the_end, g_text_amendment, p_rule at 1; apply bind_no; rewrite W; now apply bind_no|].
    rewrite or_no; [unfold to_the_end, g_block_amendment_structural, p_rule at 1; apply bind_no; rewrite W; now apply bind_no|].
    rewrite or_no; [unfold to_the_end, g_block_amendment_with_subtitle, p_rule at 1; apply bind_no; rewrite W; now apply bind_no|].
    unfold to_the_end, g_block_amendment, p_rule at 1; apply bind_no; rewrite W; now apply bind_no.
  - cbn [convert_single_node]. unfold structural_repeal_to_repeal, act_outgoing. rewrite Ya, Yp. cbn [bind]. rewrite Cd. reflexivity.
Qed.
