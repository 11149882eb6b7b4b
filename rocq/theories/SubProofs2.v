(* Sentences about articles and the subtitles before them, read forwards. *)
From Coq Require Import Lia.
From Coq Require Import ZifyBool ZifyNat ZifyN.
From Verif Require Import PyBase PyBaseFacts UnicodeAlnum NumModel NumSpec NumProofs IdModel LineModel DateModel RefModel RefSpec TreeModel StructModel SemModel GramModel GramSpec PegModel PegSpec PegSpec2 PegSpec3 PegProofs PegProofs2 PegProofs5 PegProofs6 PegProofs7 PegProofs10 PegProofs13 PegProofs14 PegProofs22 PegProofs23 PegProofs24 PegProofs25 PegProofs29 PegProofs30 PegProofs33 PegProofs34 PegProofs37 DivSpec DivProofs DivProofs2 SubSpec SubProofs.
Local Open Scope Z_scope.

(** * Articles with subtitles *)

Lemma part_head p n : part_written PArticle p n -> exists i q, n = i ++ q /\ article_shape i /\ ((exists e, p = RId i /\ q = 46%N :: 32%N :: u8 "§" ++ e /\ sign_ending e) \/ exists d t, q = d :: t /\ is_dash d).
Proof.
  intros (x & e & [i I|i d j I J D] & E & ->); cbn [unit_ending one_text range_text unit_text] in *; exists i.
  - eexists. split; [rewrite <- app_assoc; reflexivity|]. split; [exact I|]. left. exists e. auto.
  - eexists. split; [rewrite <- !app_assoc; reflexivity|]. split; [exact I|]. right. do 2 eexists. split; [reflexivity|exact D].
Qed.
Lemma group_stops i s : article_shape i -> stop s -> exists l, g_article_id_group (i ++ s) = Some (l, s).
Proof.
  intros I S. destruct (article_reads i s I S) as (l & E & C). exists l. unfold g_article_id, p_rule in E. destruct (shape_head i I) as (c & t & H & D).
  replace (ws (i ++ s)) with (i ++ s) in E by (rewrite H; symmetry; apply ws_solid_head; now apply digit_space). exact E.
Qed.
Lemma number_id i s : article_shape i -> stop s -> exists l q, g_id_with_letter g_number (i ++ s) = Some (l, q) /\ (q = s \/ exists t, q = 58%N :: t).
Proof.
  intros I S. assert (S9 : forall r, match s with c :: _ => r c = true -> r c = true | [] => True end) by (intros; destruct s; auto).
  assert (Sp : p_opt (c <~ p_opt (p_tok (u8 "/")) ;; x <~ p_re (RSet c_AZ) ;; p_ret (match c with Some c => [c; x] | None => [x] end)) s = Some (None, s) /\ match s with c :: _ => c_09 c = false | [] => True end).
  { destruct s as [|c s]; [destruct S|]. cbn in S. repeat (destruct S as [<-|S]; [split; reflexivity|]). destruct S. }
  destruct Sp as [So S0]. unfold g_id_with_letter. destruct I as [n N|n c N C|b n B N|b n c B N C].
  - rewrite (bind_yes _ _ _ _ _ (number_yes n s N S0)), (bind_yes _ _ _ _ _ So). do 2 eexists. split; [reflexivity|now left].
  - rewrite <- app_assoc. rewrite (bind_yes _ _ _ _ _ (number_yes n ([47%N; c] ++ s) N eq_refl)).
    assert (L : p_opt (c <~ p_opt (p_tok (u8 "/")) ;; x <~ p_re (RSet c_AZ) ;; p_ret (match c with Some c => [c; x] | None => [x] end)) ([47%N; c] ++ s) = Some (Some [u8 "/"; [c]], s)).
    { apply opt_yes. rewrite (bind_yes _ _ _ (Some (u8 "/")) (c :: s)) by reflexivity. rewrite (bind_yes _ _ _ [c] s); [reflexivity|]. rewrite re_set. unfold is_capital in C. replace (c_AZ c) with true by (unfold c_AZ; lia). reflexivity. }
    rewrite (bind_yes _ _ _ _ _ L). do 2 eexists. split; [reflexivity|now left].
  - rewrite <- !app_assoc. rewrite (bind_yes _ _ _ _ _ (number_yes b ([58%N] ++ n ++ s) B eq_refl)). do 2 eexists. split; [reflexivity|right; eexists; reflexivity].
  - rewrite <- !app_assoc. rewrite (bind_yes _ _ _ _ _ (number_yes b ([58%N] ++ n ++ [47%N; c] ++ s) B eq_refl)). do 2 eexists. split; [reflexivity|right; eexists; reflexivity].
Qed.
Lemma roman_digit c s : c_09 c = true -> g_roman (c :: s) = None.
Proof.
  intros D. pose proof (digit_space c D) as W. unfold g_roman, p_rule. rewrite ws_solid_head by exact W. rewrite re_plus. assert (R : c_roman c = false); [|now rewrite R]. destruct (c_roman c) eqn:R; [|reflexivity]. apply roman_only in R. cbn in R. unfold c_09 in D. lia.
Qed.
Lemma ordinal_digit c s : c_09 c = true -> g_hungarian_ordinal_capital (c :: s) = None.
Proof.
  intros D. assert (Ec : In c (u8 "0123456789")) by (unfold c_09 in D; cbn; lia). cbn in Ec. repeat (destruct Ec as [<-|Ec]; [reflexivity|]). destruct Ec.
Qed.
(* an article is not a place without a word for it *)
Lemma article_unplaced p n s : part_written PArticle p n -> gap s -> untitled (n ++ s) -> ~ In (lc s) (u8 "km") -> p_opt g_structural_position (32%N :: n ++ s) = Some (None, 32%N :: n ++ s).
Proof.
  intros P G Us L. destruct (part_head p n P) as (i & q & E & I & Q). destruct (shape_head i I) as (c & t & H & D). pose proof (digit_space c D) as W.
  assert (St : stop (q ++ s)). { destruct Q as [(e & _ & -> & _)|(d & k & -> & Dd)]; [apply stop_dot|now apply stop_dash]. }
  assert (Tx : n ++ s = i ++ q ++ s) by (now rewrite E, <- app_assoc).
  assert (Hd : n ++ s = c :: t ++ q ++ s) by (now rewrite Tx, H). apply opt_no.
  assert (Pl : forall A l (f : list pystr -> A), (forall w, In w l -> exists a r, w = a :: r /\ In a (u8 "km")) -> p_rule (p_opt g_az ;~ j <~ g_article_id_group ;; p_tok (u8 ".") ;~ g_article_suffix ;~ p_toks l ;~ p_ret (f j)) (32%N :: n ++ s) = None).
  { intros A l f Hl. destruct Q as [(e & _ & Eq & Se)|(d & k & -> & Dd)].
    - destruct (before_toks [] i e s (fun j => p_toks l ;~ p_ret (f j)) (or_introl eq_refl) I Se G) as (x & _ & X). replace (n ++ s) with (i ++ u8 ". §" ++ e ++ s) by (rewrite Tx, Eq; reflexivity). etransitivity; [exact X|]. apply bind_no. apply toks_none. intros w r Iw Ew. destruct (Hl w Iw) as (a & v & -> & Ia). apply L. unfold lc. rewrite Ew. exact Ia.
    - rewrite rule_space by reflexivity. unfold p_rule. rewrite Hd, ws_solid_head by exact W. rewrite <- Hd. rewrite (bind_yes _ _ _ None (n ++ s)).
      + destruct (group_stops i ((d :: k) ++ s) I (stop_dash _ _ Dd)) as (x & X). rewrite Tx, (bind_yes _ _ _ _ _ X). apply bind_no. apply tok_no. cbn [app]. unfold is_dash in Dd. rewrite lc_solid by (repeat (destruct Dd as [<-|Dd]; [first [reflexivity|discriminate]|]); destruct Dd). repeat (destruct Dd as [<-|Dd]; [first [reflexivity|discriminate]|]); destruct Dd.
      + apply opt_no. rewrite Hd. unfold g_az, p_rule. rewrite ws_solid_head by exact W. unfold p_re. cbn [r_match after_prefix]. destruct (N.eqb_spec 97 c) as [<-|_]; [discriminate D|reflexivity]. }
  assert (Rn : forall w, g_id_with_letter g_roman (c :: w) = None) by (intros w; unfold g_id_with_letter; apply bind_no; now apply roman_digit).
  assert (Ch : g_chapter_number (32%N :: n ++ s) = None).
  { unfold g_chapter_number. rewrite rule_space by reflexivity. unfold p_rule. rewrite Hd, ws_solid_head by exact W. apply bind_no. apply Rn. }
  unfold g_structural_position. rewrite or_no.
  - rewrite or_no; [|rewrite or_no; [|rewrite or_no; [|rewrite or_no; [|]]]].
    + unfold g_title_number. rewrite rule_space by reflexivity. unfold p_rule. rewrite Hd, ws_solid_head by exact W. rewrite (bind_yes _ _ _ None (c :: t ++ q ++ s)); [apply bind_no, Rn|]. unfold g_book. apply opt_no, bind_no. now apply ordinal_digit.
    + unfold g_part_number. rewrite rule_space by reflexivity. unfold p_rule. rewrite Hd, ws_solid_head by exact W. rewrite (bind_yes _ _ _ None (c :: t ++ q ++ s)); [apply bind_no; now apply ordinal_digit|]. unfold g_book. apply opt_no, bind_no. now apply ordinal_digit.
    + exact Ch.
    + apply (never_none _ g_subtitle_title). apply subtitle_title_never. fold (untitled (32%N :: n ++ s)). apply (untitled_cut [] 32 (n ++ s)); [now left|apply untitled_check; reflexivity|exact Us].
    + unfold g_subtitle_number. rewrite rule_space by reflexivity. unfold p_rule. rewrite Hd, ws_solid_head by exact W. rewrite <- Hd, Tx. destruct (number_id i (q ++ s) I St) as (l & r & X & R). rewrite (bind_yes _ _ _ _ _ X).
      destruct R as [->|(k & ->)]; [|apply bind_no; reflexivity]. destruct Q as [(e & _ & -> & _)|(d & k & -> & Dd)]; [reflexivity|]. apply bind_no. apply tok_no. cbn [app]. unfold is_dash in Dd. rewrite lc_solid by (repeat (destruct Dd as [<-|Dd]; [first [reflexivity|discriminate]|]); destruct Dd). repeat (destruct Dd as [<-|Dd]; [first [reflexivity|discriminate]|]); destruct Dd.
  - rewrite or_no; (rewrite (bind_yes _ _ _ None (32%N :: n ++ s)) by (now apply opt_no)); apply Pl; intros w Iw; cbn in Iw; repeat (destruct Iw as [<-|Iw]; [do 2 eexists; split; [reflexivity|cbn; tauto]|]); destruct Iw.
Qed.

(** * Sentences *)

Lemma article_head p k s : part_written PArticle p k -> exists c t, k ++ s = c :: t /\ c_09 c = true.
Proof. intros P. destruct (part_head p k P) as (i & q & -> & I & _). destruct (shape_head i I) as (c & t & -> & D). exists c, ((t ++ q) ++ s). auto. Qed.
Lemma with_subtitle_reads n p k s v t : part_written PArticle p k -> gap (v ++ s) -> ~ is_dash (lc (v ++ s)) ->
  (forall q : g_part, (p_tok (u8 "és") ;~ g_az ;~ p_opt (p_toks [u8 "azt"; u8 "azokat"]) ;~ p_tok (u8 "megelőző") ;~ g_subtitle_token ;~ p_ret [q]) (v ++ s) = Some ([q], t)) ->
  exists g sp, says_part PArticle p g /\ g_article_reference n (32%N :: k ++ v ++ s) = Some (g, v ++ s) /\ g_reference_with_subtitle n (32%N :: k ++ v ++ s) = Some (mk_greference [g] sp, t).
Proof.
  intros P G D R. destruct (part_reads n PArticle p k (v ++ s) P G D) as (g & X & Q). cbn [part_parser] in X. destruct (article_head p k (v ++ s) P) as (c & r & E & C). exists g, (pos_of n (k ++ v ++ s), pos_of n t). split; [exact Q|]. pose proof (digit_space c C) as W.
  assert (X' : g_article_reference n (32%N :: k ++ v ++ s) = Some (g, v ++ s)) by (unfold g_article_reference, g_part_rule in *; rewrite rule_space by reflexivity; exact X). split; [exact X'|].
  unfold g_reference_with_subtitle, reference_of. apply (map_yes (fun x => mk_greference (fst x) (snd x)) _ _ ([g], (pos_of n (k ++ v ++ s), pos_of n t)) _). unfold p_span. change (ws (32%N :: k ++ v ++ s)) with (ws (k ++ v ++ s)). rewrite E, ws_solid_head by exact W. rewrite <- E.
  match goal with |- match ?f _ with _ => _ end = _ => assert (B : f (k ++ v ++ s) = Some ([g], t)) end; [|now rewrite B].
  apply or_yes. rewrite or_no; [rewrite (bind_yes _ _ _ _ _ X); apply R|]. apply bind_no. rewrite E. unfold g_subtitle_token, p_rule. rewrite ws_solid_head by exact W.
  assert (N : forall a w, In a (u8 "a") -> p_tok (a :: w) (c :: r) = None) by (intros a w [<-|[]]; apply tok_no; rewrite lc_solid by exact W; unfold c_09 in C; lia).
  rewrite or_no; [apply bind_no, N; now left|]. apply map_no. apply toks_none. intros w q Iw Ew. rewrite ws_solid_head in Ew by exact W. unfold c_09 in C. cbn in Iw. repeat (destruct Iw as [<-|Iw]; [cbn in Ew; injection Ew as Ew _; lia|]). destruct Iw.
Qed.
Lemma insertion_reads n p k s : part_written PArticle p k -> gap s -> ~ is_dash (lc s) -> p_opt (one_part (g_paragraph_reference n)) s = Some (None, s) ->
  exists x, g_insertion_reference n (u8 " a következő " ++ k ++ s) = Some (x, s).
Proof.
  intros P G D R. destruct (part_reads n PArticle p k s P G D) as (g & X & _). cbn [part_parser] in X. eexists. unfold g_insertion_reference, reference_of. apply (map_yes (fun x => mk_greference (fst x) (snd x)) _ _ ([g], (pos_of n (u8 "a következő " ++ k ++ s), pos_of n s)) _). unfold p_span. change (ws (u8 " a következő " ++ k ++ s)) with (u8 "a következő " ++ k ++ s).
  match goal with |- match ?f _ with _ => _ end = _ => assert (B : f (u8 "a következő " ++ k ++ s) = Some ([g], s)) end; [|now rewrite B].
  do 3 apply or_yes. rewrite (bind_yes _ _ _ (u8 "a következő") (32%N :: k ++ s)) by reflexivity. unfold g_article_and_paragraph.
  rewrite (bind_yes _ _ _ g s) by (unfold g_article_reference, g_part_rule in *; rewrite rule_space by reflexivity; exact X). rewrite (bind_yes _ _ _ _ _ R). reflexivity.
Qed.
Lemma article_inserted_found z u a x y m w r p i k v f : article_word z -> title_words u -> act_written a x y m -> position_written a w r -> part_written PArticle p k -> first_of p i -> untitled k -> preceding_word v -> insertion_ending f ->
  grammar_analyzer (z ++ u ++ x ++ y ++ w ++ u8 " a következő " ++ k ++ v ++ u8 " alcímmel" ++ f ++ u8 ":") = Some (mk_analysis [] [BlockAmendment (ASRef (at_article a BEFORE_WITH_ARTICLE i)) true] m).
Proof.
  intros Z V A P K I Uk Pv F. set (T := z ++ u ++ x ++ y ++ w ++ u8 " a következő " ++ k ++ v ++ u8 " alcímmel" ++ f ++ u8 ":"). set (n := Z.of_nat (length T)). set (s := u8 " alcímmel" ++ f ++ u8 ":").
  destruct (position_after_act a w r (u8 " " ++ k ++ v ++ s) P) as (G1 & G2 & G3 & G4).
  destruct (the_act_reads n z u a x y m _ Z V A G1 G2 G3 G4) as (g & H & Y). destruct (act_says _ _ _ _ _ Y) as [Ya _].
  assert (E : g_insertion_suffix (f ++ u8 ":") = Some (tl f, u8 ":")) by (destruct F as [<-|[<-|[]]]; reflexivity).
  assert (Vs : exists b, v ++ s = 32%N :: b /\ untitled b /\ ~ is_dash (lc (v ++ s)) /\ p_opt (one_part (g_paragraph_reference n)) (v ++ s) = Some (None, v ++ s) /\ g_insertion_suffix (v ++ s) = None /\
    forall q : g_part, (p_tok (u8 "és") ;~ g_az ;~ p_opt (p_toks [u8 "azt"; u8 "azokat"]) ;~ p_tok (u8 "megelőző") ;~ g_subtitle_token ;~ p_ret [q]) (v ++ s) = Some ([q], f ++ u8 ":")).
  { unfold s. destruct Pv as [<-|[<-|[<-|[]]]]; destruct F as [<-|[<-|[]]]; eexists; (split; [reflexivity|]; split; [apply untitled_check; reflexivity|]; split; [unfold is_dash; cbn; intuition discriminate|]; split; [reflexivity|]; split; [reflexivity|intros q; reflexivity]). }
  destruct Vs as (b & Eb & Ub & Db & Pb & Sb & Rb).
  assert (Us : untitled (u8 " a következő" ++ u8 " " ++ k ++ v ++ s)).
  { apply (untitled_cut (u8 " a következő") 32 (k ++ v ++ s)); [now left|apply untitled_check; reflexivity|]. rewrite Eb. apply untitled_cut; [now left|exact Uk|exact Ub]. }
  destruct (position_reads a w r (u8 " " ++ k ++ v ++ s) P Us (gap_space _)) as (st & S & C).
  assert (Gv : gap (v ++ s)) by (rewrite Eb; apply gap_space).
  destruct (with_subtitle_reads n p k s v (f ++ u8 ":") K Gv Db Rb) as (q & sp & Q & _ & R).
  destruct (insertion_reads n p k (v ++ s) K Gv Db Pb) as (xi & J).
  assert (X : g_start n T = Some (node_with_act (fun a => GBlockAmendmentWithSubtitle a st None (Some (mk_greference [q] sp))) g, [])).
  { eapply subtitle_found; [now apply act_start|exact H|exact S|intros ? ? X; discriminate X| |].
    - intros x0 q0 X0. change (u8 " a következő" ++ u8 " " ++ k ++ v ++ s) with (u8 " a következő " ++ k ++ v ++ s) in X0. rewrite J in X0. injection X0 as _ <-. exact Sb.
    - rewrite or_no; [|rewrite or_no; reflexivity]. rewrite (bind_yes _ _ _ (u8 "a következő") (32%N :: k ++ v ++ s)) by reflexivity. rewrite (bind_yes _ _ _ _ _ R), (bind_yes _ _ _ _ _ E). reflexivity. }
  destruct (article_converts a p q i sp Q I) as (rr & R1 & R2 & R3).
  eapply node_found; [exact X|exact Y|]. cbn [convert_single_node]. unfold subtitle_to_block. rewrite Ya. cbn [bind]. fold (of_act a). unfold to_structural in C. rewrite C. cbn [bind]. rewrite R1. cbn [bind convert_potential_reference convert_potential_in_text_reference option_map]. unfold subtitle_block.
  destruct R3 as [R3|(j & R3)]; rewrite R3, R2; reflexivity.
Qed.
Lemma digit_insertion n g s p k : part_written PArticle p k -> g_article_reference n (k ++ s) = Some (g, s) -> p_opt (one_part (g_paragraph_reference n)) s = Some (None, s) -> g_insertion_token s = None -> g_any_point n s = None -> g_insertion_reference n (32%N :: k ++ s) = None.
Proof.
  intros P X O I A. destruct (article_head p k s P) as (c & r & E & C). pose proof (digit_space c C) as W. unfold g_insertion_reference, reference_of. apply map_no. unfold p_span. change (ws (32%N :: k ++ s)) with (ws (k ++ s)). rewrite E, ws_solid_head by exact W. rewrite <- E.
  match goal with |- match ?f _ with _ => _ end = _ => assert (B : f (k ++ s) = None) end; [|now rewrite B].
  assert (Az : g_az_article n (k ++ s) = Some (g, s)).
  { unfold g_az_article. rewrite (bind_yes _ _ _ None (k ++ s)); [exact X|]. apply opt_no. rewrite E. unfold g_az, p_rule. rewrite ws_solid_head by exact W. unfold p_re. cbn [r_match after_prefix]. destruct (N.eqb_spec 97 c) as [<-|_]; [discriminate C|reflexivity]. }
  assert (Ap : g_article_and_paragraph n (g_az_article n) (k ++ s) = Some ([g], s)) by (unfold g_article_and_paragraph; rewrite (bind_yes _ _ _ _ _ Az), (bind_yes _ _ _ _ _ O); reflexivity).
  rewrite or_no.
  - rewrite (bind_yes _ _ _ _ _ Ap). now apply bind_no.
  - rewrite or_no; [|rewrite or_no].
    + rewrite (bind_yes _ _ _ (Some [g]) s); [now apply bind_no|]. apply opt_yes. do 2 apply or_yes. exact Ap.
    + rewrite (bind_yes _ _ _ (Some [g]) s); [now apply bind_no|]. apply opt_yes. apply or_yes. unfold one_part. now apply (map_yes (fun x => [x])).
    + apply bind_no. unfold g_insertion_token, p_rule. rewrite E, ws_solid_head by exact W. apply tok_no. rewrite lc_solid by exact W. unfold c_09 in C. lia.
Qed.
Lemma digit_reference n g s p k : part_written PArticle p k -> g_article_reference n (k ++ s) = Some (g, s) -> ref_with_paragraph n s = None -> ref_with_point n s = None -> exists x, g_reference_rule n (32%N :: k ++ s) = Some (x, s).
Proof.
  intros P X A B. destruct (article_head p k s P) as (c & r & E & C). pose proof (digit_space c C) as W. eexists. unfold g_reference_rule, reference_of. apply (map_yes (fun x => mk_greference (fst x) (snd x)) _ _ ([g], (pos_of n (k ++ s), pos_of n s)) _). unfold p_span. change (ws (32%N :: k ++ s)) with (ws (k ++ s)). rewrite E, ws_solid_head by exact W. rewrite <- E.
  match goal with |- match ?f _ with _ => _ end = _ => assert (Y : f (k ++ s) = Some ([g], s)) end; [|now rewrite Y].
  do 3 apply or_yes. rewrite or_no; [unfold ref_with_article_no_paragraph; rewrite (bind_yes _ _ _ _ _ X), (bind_yes _ _ _ None s) by (now apply opt_no); reflexivity|].
  unfold ref_with_article_with_paragraph. rewrite (bind_yes _ _ _ _ _ X). now apply bind_no.
Qed.
Lemma article_replaced_found z u a x y m p i k v t f : article_word z -> title_words u -> act_written a x y m -> part_written PArticle p k -> first_of p i -> untitled k -> preceding_word v -> subtitle_word t -> untitled t -> subtitle_ending f ->
  grammar_analyzer (z ++ u ++ x ++ y ++ u8 " " ++ k ++ v ++ t ++ f ++ u8 ":") = Some (mk_analysis [] [BlockAmendment (ASRef (at_article a BEFORE_WITH_ARTICLE i)) false] m).
Proof.
  intros Z V A K I Uk Pv Wt Ut F. set (T := z ++ u ++ x ++ y ++ u8 " " ++ k ++ v ++ t ++ f ++ u8 ":"). set (n := Z.of_nat (length T)). set (s := t ++ f ++ u8 ":").
  assert (Fi : In f [u8 " helyébe a következő rendelkezés lép"; u8 " helyébe a következő rendelkezések lépnek"; u8 " a következő szöveggel lép hatályba"; u8 " helyébe a következő alcím lép"; u8 " helyébe a következő alcím és rendelkezés lép"; u8 " helyébe a következő rendelkezés és alcím lép"; u8 " helyébe a következő alcím lépnek"]).
  { destruct F as [[<-|[<-|[<-|[]]]]|[<-|[<-|[<-|[<-|[]]]]]]; cbn; tauto. }
  assert (Wi : In t [u8 " alcím"; u8 " alcím címe"; u8 " alcím-megjelölés"; u8 " alcím-megjelölése"]).
  { destruct Wt as [<-|[<-|[<-|[<-|[<-|[]]]]]]; try (cbn; tauto). exfalso. apply Ut. exists [32%N], []. reflexivity. }
  assert (Hf : exists c, f ++ u8 ":" = 32%N :: c /\ untitled c). { clear - Fi. repeat (destruct Fi as [<-|Fi]; [eexists; split; [reflexivity|apply untitled_check; reflexivity]|]). destruct Fi. }
  destruct Hf as (fc & Hf & Uf). assert (Ht : exists c, t = 32%N :: c /\ untitled c). { clear - Wi. repeat (destruct Wi as [<-|Wi]; [eexists; split; [reflexivity|apply untitled_check; reflexivity]|]). destruct Wi. } destruct Ht as (tc & Ht & Utc).
  assert (Vs : exists b, v = 32%N :: b /\ untitled b /\ ~ is_dash (lc (v ++ s)) /\ ~ In (lc (v ++ s)) (u8 "km") /\ p_opt (one_part (g_paragraph_reference n)) (v ++ s) = Some (None, v ++ s) /\ g_insertion_token (v ++ s) = None /\ g_any_point n (v ++ s) = None /\ ref_with_paragraph n (v ++ s) = None /\ ref_with_point n (v ++ s) = None /\ g_amendment_suffix (v ++ s) = None).
  { clear - Pv. destruct Pv as [<-|[<-|[<-|[]]]]; eexists; (split; [reflexivity|]; split; [apply untitled_check; reflexivity|]; split; [unfold is_dash; cbn; intuition discriminate|]; split; [cbn; intuition discriminate|]; repeat split; reflexivity). }
  destruct Vs as (b & Eb & Ub & V1 & V2 & V3 & V4 & V5 & V6 & V7 & V8).
  assert (Rb : forall q : g_part, (p_tok (u8 "és") ;~ g_az ;~ p_opt (p_toks [u8 "azt"; u8 "azokat"]) ;~ p_tok (u8 "megelőző") ;~ g_subtitle_token ;~ p_ret [q]) (v ++ s) = Some ([q], f ++ u8 ":")).
  { intros q. assert (Ts : g_subtitle_token s = Some (tt, f ++ u8 ":")). { unfold s. clear - Wi Fi. repeat (destruct Fi as [<-|Fi]; [repeat (destruct Wi as [<-|Wi]; [reflexivity|]); destruct Wi|]). destruct Fi. }
    assert (Vr : forall A (k : parser A), (p_tok (u8 "és") ;~ g_az ;~ p_opt (p_toks [u8 "azt"; u8 "azokat"]) ;~ p_tok (u8 "megelőző") ;~ k) (v ++ s) = k s). { intros A' k'. unfold s. rewrite Ht. destruct Pv as [<-|[<-|[<-|[]]]]; reflexivity. }
    etransitivity; [apply Vr|]. now rewrite (bind_yes _ _ _ _ _ Ts). }
  assert (Gv : gap (v ++ s)) by (rewrite Eb; apply gap_space).
  destruct (with_subtitle_reads n p k s v (f ++ u8 ":") K Gv V1 Rb) as (q & sp & Q & Xa & R).
  assert (Xk : g_article_reference n (k ++ v ++ s) = Some (q, v ++ s)) by (unfold g_article_reference, g_part_rule in *; rewrite rule_space in Xa by reflexivity; exact Xa).
  assert (Us : untitled (k ++ v ++ s)).
  { rewrite Eb. cbn [app]. apply untitled_cut; [now left|exact Uk|]. unfold s. rewrite Ht. cbn [app]. apply untitled_cut; [now left|exact Ub|]. rewrite Hf. apply untitled_cut; [now left|exact Utc|exact Uf]. }
  pose proof (article_unplaced p k (v ++ s) K Gv Us V2) as S.
  destruct (article_head p k (v ++ s) K) as (c & r & Ec & C). destruct (digit_after_act c r C) as (G1 & G2 & G3 & G4). rewrite <- Ec in G1, G2, G3, G4.
  destruct (the_act_reads n z u a x y m _ Z V A G1 G2 G3 G4) as (g & H & Y). destruct (act_says _ _ _ _ _ Y) as [Ya _].
  destruct (digit_reference n q (v ++ s) p k K Xk V6 V7) as (xr & Xr). pose proof (digit_insertion n q (v ++ s) p k K Xk V3 V4 V5) as Xi.
  assert (X : g_start n T = Some (node_with_act (fun a => GBlockAmendmentWithSubtitle a None (Some (mk_greference [q] sp)) None) g, [])).
  { eapply subtitle_found; [now apply act_start|exact H|exact S| | |].
    - intros x0 q0 X0. rewrite Xr in X0. injection X0 as _ <-. exact V8.
    - intros x0 q0 X0. rewrite Xi in X0. discriminate X0.
    - apply or_yes. unfold p_bind, p_or. rewrite R. clear - Fi. repeat (destruct Fi as [<-|Fi]; [reflexivity|]). destruct Fi. }
  destruct (article_converts a p q i sp Q I) as (rr & R1 & R2 & R3).
  eapply node_found; [exact X|exact Y|]. cbn [convert_single_node]. unfold subtitle_to_block. rewrite Ya. cbn [bind]. rewrite R1. cbn [bind convert_potential_reference convert_potential_in_text_reference option_map]. unfold subtitle_block.
  destruct R3 as [R3|(j & R3)]; rewrite R3, R2; reflexivity.
Qed.
