(* Amendments and repeals of divisions of acts, read forwards. *)
From Coq Require Import Lia.
From Coq Require Import ZifyBool ZifyNat ZifyN.
From Verif Require Import PyBase PyBaseFacts UnicodeAlnum NumModel NumSpec NumProofs IdModel LineModel DateModel RefModel RefSpec TreeModel StructModel SemModel GramModel GramSpec PegModel PegSpec PegSpec2 PegSpec3 PegProofs PegProofs2 PegProofs5 PegProofs6 PegProofs7 PegProofs10 PegProofs13 PegProofs14 PegProofs22 PegProofs23 PegProofs24 PegProofs25 PegProofs29 PegProofs30 PegProofs33 PegProofs34 PegProofs37 DivSpec DivProofs.
Local Open Scope Z_scope.

(** * Divisions *)

Lemma unit_reads w e s : match w with c :: _ => isspace_chr c = false | [] => False end -> ending e -> gap s -> exists x, g_suffix w (w ++ e ++ s) = Some (x, s).
Proof. intros W E G. apply unit_yes; [exact W|exact E|]. destruct s as [|c s]; [exact Logic.I|]. apply gap_facts in G. tauto. Qed.
Lemma unit_reads_after w e s : match w with c :: _ => isspace_chr c = false | [] => False end -> ending e -> gap s -> exists x, g_suffix w (32%N :: w ++ e ++ s) = Some (x, s).
Proof. intros W E G. unfold g_suffix. rewrite rule_space by reflexivity. now apply unit_reads. Qed.
Lemma dot_reads s : p_tok (u8 ".") (46%N :: s) = Some (u8 ".", s).
Proof. reflexivity. Qed.
Definition g_division : parser g_structural := g_subtitle_number <|> g_subtitle_title <|> g_chapter_number <|> g_part_number <|> g_title_number.
Lemma division_space s : g_division (32%N :: s) = g_division s.
Proof. reflexivity. Qed.
Lemma roman_begins w i s : numeral_written w i -> exists c d t, w ++ 46%N :: s = c :: d :: t /\ In c NumSpec.roman_letters /\ d <> 225%N.
Proof.
  intros [n p N P]. destruct (roman_shape n N) as [R F]. destruct (roman n) as [|c [|d t]]; [contradiction| |].
  - inversion F as [|? ? C]; subst. destruct P as [->|(e & E & [->|[-> _]])]; do 3 eexists; (split; [reflexivity|]; split; [exact C|]); [discriminate|discriminate|lia].
  - inversion F as [|? ? C F']; subst. inversion F' as [|? ? D]; subst. do 3 eexists; (split; [reflexivity|]; split; [exact C|]). intros ->. cbn in D. repeat (destruct D as [D|D]; [discriminate D|]). destruct D.
Qed.
Lemma roman_no_digit c : In c NumSpec.roman_letters -> c_09 c = false.
Proof. intros I. apply negb_true_iff. revert c I. apply roman_checks. reflexivity. Qed.
Lemma subtitle_no s : c_09 (lc s) = false -> g_subtitle_number s = None.
Proof. intros H. unfold g_subtitle_number, p_rule. apply bind_no. unfold g_id_with_letter. apply bind_no, number_no. now rewrite lc_ws. Qed.
Lemma book_reads v b s : book_written v b -> g_hungarian_ordinal_capital s = None \/ (exists w t, g_hungarian_ordinal_capital s = Some (w, t) /\ p_tok (u8 "Könyv") t = None) -> (exists c t, s = c :: t /\ isspace_chr c = false) ->
  exists o t, (forall A (q : option pystr -> parser A), p_rule (p_bind g_book q) (v ++ s) = q o t) /\ convert_book_id o = Ok b /\ (t = s \/ t = 32%N :: s).
Proof.
  intros B H (c & t & E & W). destruct B as [|w i O].
  - exists None, s. split; [|split; [reflexivity|now left]]. intros A q. cbn [app]. unfold p_rule. replace (ws s) with s by (rewrite E; symmetry; now apply ws_solid_head).
    rewrite (bind_yes _ _ _ None s); [reflexivity|]. unfold g_book. apply opt_no. destruct H as [H|(w & r & H & K)]; [now apply bind_no|]. rewrite (bind_yes _ _ _ _ _ H). now apply bind_no.
  - exists (Some w), (32%N :: s). split; [|split; [|now right]].
    + intros A q. unfold p_rule. destruct (ordinal_solid w i O) as (d & r & D & V & _). replace (ws ((w ++ u8 " Könyv ") ++ s)) with (w ++ 32%N :: u8 "Könyv" ++ 32%N :: s) by (rewrite <- app_assoc, D; symmetry; now apply ws_solid_head).
      rewrite (bind_yes _ _ _ (Some w) (32%N :: s)); [reflexivity|]. unfold g_book. apply opt_yes. rewrite (bind_yes _ _ _ _ _ (ordinal_reads w i O _)). reflexivity.
    + cbn [convert_book_id identifier_from_string]. destruct (ordinal_number w i O) as (n & -> & ->). reflexivity.
Qed.
Lemma division_reads a w r s : division_written a w r -> gap s -> (sr_subtitle r = None -> untitled (w ++ s)) -> exists d, g_division (w ++ s) = Some (d, s) /\ convert_structural_reference a d = Ok r.
Proof.
  intros D G Ut. unfold g_division. assert (Tn : sr_subtitle r = None -> g_subtitle_title (w ++ s) = None) by (intros H; exact (never_none (w ++ s) g_subtitle_title (subtitle_title_never (w ++ s) (Ut H)))).
  destruct D as [n p e N P E|w i e N E|v b w i e B O E|v b w i e B N E].
  - destruct (digits_reads n p (32%N :: u8 "alcím" ++ e ++ s) N P) as (l & L & C). destruct (unit_reads_after (u8 "alcím") e s eq_refl E G) as (x & X). exists (GSubtitleNumber l).
    split; [|unfold convert_structural_reference, identifier_from_string; rewrite C; reflexivity]. do 4 apply or_yes. unfold g_subtitle_number, p_rule.
    replace (((n ++ p) ++ u8 ". alcím" ++ e) ++ s) with ((n ++ p) ++ 46%N :: 32%N :: u8 "alcím" ++ e ++ s) by (now rewrite <- !app_assoc).
    assert (W : ws ((n ++ p) ++ 46%N :: 32%N :: u8 "alcím" ++ e ++ s) = (n ++ p) ++ 46%N :: 32%N :: u8 "alcím" ++ e ++ s).
    { destruct N as [N F]. destruct n as [|c n]; [contradiction|]. apply ws_solid_head. inversion F; subst. apply digit_space. unfold c_09. lia. }
    rewrite W, (bind_yes _ _ _ _ _ L), (bind_yes _ _ _ _ _ (dot_reads _)), (bind_yes _ _ _ _ _ X). reflexivity.
  - destruct (numeral_reads w i (32%N :: u8 "Fejezet" ++ e ++ s) N) as (l & L & C & K). destruct (unit_reads_after (u8 "Fejezet") e s eq_refl E G) as (x & X). exists (GChapterNumber l).
    split; [|unfold convert_structural_reference, identifier_from_string; rewrite C, K; reflexivity]. destruct (roman_begins w i (32%N :: u8 "Fejezet" ++ e ++ s) N) as (c & d & t & H & I & _).
    assert (Q : (w ++ u8 ". Fejezet" ++ e) ++ s = w ++ 46%N :: 32%N :: u8 "Fejezet" ++ e ++ s) by (now rewrite <- !app_assoc).
    assert (W : ws (w ++ 46%N :: 32%N :: u8 "Fejezet" ++ e ++ s) = w ++ 46%N :: 32%N :: u8 "Fejezet" ++ e ++ s) by (rewrite H; now apply ws_solid_head, roman_solid).
    do 2 apply or_yes. rewrite or_no.
    + rewrite Q. unfold g_chapter_number, p_rule. rewrite W, (bind_yes _ _ _ _ _ L), (bind_yes _ _ _ _ _ (dot_reads _)), (bind_yes _ _ _ _ _ X). reflexivity.
    + rewrite or_no; [now apply Tn|]. apply subtitle_no. rewrite Q, H, lc_solid by now apply roman_solid. now apply roman_no_digit.
  - destruct (ordinal_solid w i O) as (c & t & Hw & Sc & _ & _ & Dc). set (z := w ++ 32%N :: u8 "Rész" ++ e ++ s).
    assert (Q : (v ++ w ++ u8 " Rész" ++ e) ++ s = v ++ z) by (unfold z; now rewrite <- !app_assoc). rewrite Q in *.
    destruct (unit_reads_after (u8 "Rész") e s eq_refl E G) as (x & X). pose proof (ordinal_reads w i O (u8 "Rész" ++ e ++ s)) as R. fold z in R.
    destruct (book_reads v b z B) as (o & q & Bk & Bc & Bt). { right. exists w, (32%N :: u8 "Rész" ++ e ++ s). split; [exact R|reflexivity]. } { exists c, (t ++ 32%N :: u8 "Rész" ++ e ++ s). split; [unfold z; now rewrite Hw|exact Sc]. }
    destruct (ordinal_number w i O) as (n & Hn & Hi). exists (GPartNumber o w). split; [|unfold convert_structural_reference; rewrite Bc; unfold identifier_from_string; rewrite Hn, Hi; reflexivity].
    apply or_yes. rewrite or_no.
    + unfold g_part_number. rewrite Bk. assert (R' : g_hungarian_ordinal_capital q = Some (w, 32%N :: u8 "Rész" ++ e ++ s)) by (destruct Bt as [->| ->]; [exact R|unfold g_hungarian_ordinal_capital; rewrite rule_space by reflexivity; exact R]).
      rewrite (bind_yes _ _ _ _ _ R'), (bind_yes _ _ _ _ _ X). reflexivity.
    + assert (F : exists w' i' s', ordinal_written w' i' /\ v ++ z = w' ++ 32%N :: s') by (destruct B as [|w' i' O']; [exists w, i; eexists; split; [exact O|reflexivity]|exists w', i'; eexists; split; [exact O'|rewrite <- app_assoc; reflexivity]]).
      destruct F as (w' & i' & s' & O' & F). rewrite F in *. rewrite or_no; [exact (ordinal_chapter w' i' O' s')|]. rewrite or_no; [now apply Tn|]. apply subtitle_no.
      destruct (ordinal_solid w' i' O') as (c' & t' & Hw' & Sc' & _ & _ & Dc'). rewrite Hw'. cbn [app]. now rewrite lc_solid.
  - destruct (numeral_reads w i (32%N :: u8 "Cím" ++ e ++ s) N) as (l & L & C & K). destruct (unit_reads_after (u8 "Cím") e s eq_refl E G) as (x & X). 
    destruct (roman_begins w i (32%N :: u8 "Cím" ++ e ++ s) N) as (c & d & t & H & I & D). set (z := w ++ 46%N :: 32%N :: u8 "Cím" ++ e ++ s) in *.
    assert (Q : (v ++ w ++ u8 ". Cím" ++ e) ++ s = v ++ z) by (unfold z; now rewrite <- !app_assoc). rewrite Q in *. pose proof (roman_ordinal c d t I D) as R. rewrite <- H in R. pose proof (roman_solid c I) as Sc.
    assert (Wz : ws z = z) by (rewrite H; now apply ws_solid_head).
    destruct (book_reads v b z B (or_introl R)) as (o & q & Bk & Bc & Bt). { eauto. }
    exists (GTitleNumber o l). split; [|unfold convert_structural_reference; rewrite Bc; unfold identifier_from_string; cbn [bind]; rewrite C, K; reflexivity].
    assert (R' : g_hungarian_ordinal_capital q = None) by (destruct Bt as [->| ->]; [exact R|unfold g_hungarian_ordinal_capital; rewrite rule_space by reflexivity; exact R]).
    assert (L' : g_id_with_letter g_roman q = Some (l, 46%N :: 32%N :: u8 "Cím" ++ e ++ s)) by (destruct Bt as [->| ->]; [exact L|unfold g_id_with_letter, g_roman; rewrite <- L; unfold p_bind, z; rewrite rule_space by reflexivity; reflexivity]).
    rewrite or_no.
    + unfold g_title_number. rewrite Bk, (bind_yes _ _ _ _ _ L'), (bind_yes _ _ _ _ _ (dot_reads _)), (bind_yes _ _ _ _ _ X). reflexivity.
    + rewrite or_no; [unfold g_part_number; rewrite Bk; now apply bind_no|]. rewrite or_no.
      * destruct B as [|w' i' O']; [|rewrite <- app_assoc; exact (ordinal_chapter w' i' O' _)]. cbn [app]. unfold g_chapter_number, p_rule. rewrite Wz. unfold z. now rewrite (bind_yes _ _ _ _ _ L), (bind_yes _ _ _ _ _ (dot_reads _)).
      * rewrite or_no; [now apply Tn|]. apply subtitle_no. destruct B as [|w' i' O']; [cbn [app]; rewrite H, lc_solid by exact Sc; now apply roman_no_digit|].
        destruct (ordinal_solid w' i' O') as (c' & t' & Hw' & Sc' & _ & _ & Dc'). rewrite Hw'. cbn [app]. now rewrite lc_solid.
Qed.

(** * Texts *)

Lemma has_cut a c b x : x <> [] -> ~ In c x -> has (a ++ c :: b) x -> has a x \/ has b x.
Proof.
  intros N F (u & v & E). apply app_eq_app in E as (l & [(-> & E)|(-> & E)]).
  - apply app_eq_app in E as (k & [(-> & E)|(-> & E)]).
    + destruct k as [|d k]; [|injection E as <- ->; destruct F; apply in_or_app; right; now left].
      rewrite app_nil_r in *. left. exists u, []. now rewrite app_nil_r.
    + left. exists u, k. reflexivity.
  - destruct l as [|d l]; cbn [app] in E.
    + destruct x as [|d x]; [contradiction|]. injection E as <- _. destruct F. now left.
    + injection E as <- ->. right. now exists l, v.
Qed.
Lemma unmixed_cut a c b : In c (u8 " .") -> unmixed a -> unmixed b -> unmixed (a ++ c :: b).
Proof.
  unfold unmixed. rewrite !Forall_forall. intros C A B x I H. assert (Q : x <> [] /\ ~ In c x).
  { cbn in C. repeat (destruct I as [<-|I]; [split; [discriminate|]; destruct C as [<-|[<-|[]]]; cbn; intuition discriminate|]). destruct I. }
  destruct Q as [Q F]. apply has_cut in H as [H|H]; [exact (A x I H)|exact (B x I H)|exact Q|exact F].
Qed.
Lemma untitled_cut a c b : In c (u8 " .") -> untitled a -> untitled b -> untitled (a ++ c :: b).
Proof. intros C A B H. apply has_cut in H as [H|H]; [exact (A H)|exact (B H)|discriminate|]. cbn in C. destruct C as [<-|[<-|[]]]; cbn; intuition discriminate. Qed.
Lemma unmixed_check w : forallb (fun x => negb (contains_sub x w)) [u8 "§"; u8 "bekezdés"; u8 "pont"] = true -> unmixed w.
Proof. intros H. rewrite forallb_forall in H. apply Forall_forall. intros x I (u & v & E). apply H in I. rewrite (proj2 (contains_sub_spec x w)) in I; [discriminate I|]. now exists u, v. Qed.
Lemma untitled_check w : contains_sub (u8 "alcíme") w = false -> untitled w.
Proof. intros H (u & v & E). rewrite (proj2 (contains_sub_spec (u8 "alcíme") w)) in H; [discriminate H|]. now exists u, v. Qed.

Lemma division_solid a w r : division_written a w r -> exists c t, w = c :: t /\ isspace_chr c = false /\ c <> 40%N /\ (c < 97 \/ 122 < c)%N.
Proof.
  assert (R : forall w i v, numeral_written w i -> exists c t, w ++ v = c :: t /\ isspace_chr c = false /\ c <> 40%N /\ (c < 97 \/ 122 < c)%N).
  { intros w' i v [n p N P]. destruct (roman_shape n N) as [Q F]. destruct (roman n) as [|c t]; [contradiction|]. inversion F as [|? ? C]; subst. do 2 eexists. split; [reflexivity|]. split; [now apply roman_solid|].
    cbn in C. repeat (destruct C as [<-|C]; [split; [discriminate|lia]|]). destruct C. }
  assert (O : forall w i v, ordinal_written w i -> exists c t, w ++ v = c :: t /\ isspace_chr c = false /\ c <> 40%N /\ (c < 97 \/ 122 < c)%N).
  { intros w' i v H. destruct (ordinal_solid w' i H) as (c & t & -> & A & B & C & _). do 2 eexists. split; [reflexivity|]. auto. }
  intros [n p e N P E|w' i e N E|v b w' i e B Q E|v b w' i e B N E].
  - destruct N as [N F]. destruct n as [|c n]; [contradiction|]. inversion F as [|? ? C]; subst. do 2 eexists. split; [reflexivity|]. split; [apply digit_space; unfold c_09; lia|lia].
  - exact (R w' i _ N).
  - destruct B as [|v' i' B]; [exact (O w' i _ Q)|]. rewrite <- app_assoc. exact (O v' i' _ B).
  - destruct B as [|v' i' B]; [exact (R w' i _ N)|]. rewrite <- app_assoc. exact (O v' i' _ B).
Qed.
Lemma solid_after c t : isspace_chr c = false -> c <> 40%N -> (c < 97 \/ 122 < c)%N -> no_bracket (32%N :: c :: t) /\ no_more (32%N :: c :: t) /\ p_tok in_effect (32%N :: c :: t) = None /\ g_subtitle_token (32%N :: c :: t) = None.
Proof.
  intros W B L. assert (E : lc (32%N :: c :: t) = c) by (rewrite lc_space by reflexivity; now apply lc_solid). assert (E' : ws (32%N :: c :: t) = c :: t) by (change (ws (c :: t) = c :: t); now apply ws_solid_head). split; [left; now rewrite E|]. split; [|split].
  - intros e r I H. cbn in I. repeat (destruct I as [<-|I]; [cbn in H; injection H as H _; lia|]). destruct I.
  - apply tok_no. rewrite E. lia.
  - unfold g_subtitle_token, p_rule. rewrite E'. rewrite or_no.
    + apply bind_no, tok_no. rewrite lc_solid by exact W. lia.
    + apply map_no, toks_none. rewrite ws_solid_head by exact W. intros w r I H. cbn in I. repeat (destruct I as [<-|I]; [cbn in H; injection H as H _; lia|]). destruct I.
Qed.

(** * The other rules *)

Section Total.
Variable total : Z.
Lemma subtitled_none s : unmixed s -> g_subtitle_token s = None -> g_reference_with_subtitle total s = None.
Proof.
  intros M N. assert (N' : g_subtitle_token (ws s) = None) by (unfold g_subtitle_token, p_rule in *; now rewrite ws_idem). unfold g_reference_with_subtitle, reference_of. apply map_no. unfold p_span.
  assert (A : g_article_reference total (ws s) = None). { pose proof (article_never s total M) as H. destruct (g_article_reference total (ws s)) as [[x r]|] eqn:E; [|reflexivity]. destruct (H _ _ _ (suf_ws s s (suf_refl s)) E). }
  rewrite or_no; [rewrite map_no by exact N'; reflexivity|]. rewrite or_no; apply bind_no; assumption.
Qed.
Lemma block_none s : unmixed s -> forall g,
  p_map (fun x => node_with_act (fun a => GBlockAmendment a (fst x) (snd x)) g) (
        (x <~ g_reference_rule total ;; g_amendment_suffix ;~ p_tok (u8 ":") ;~ p_ret (Some x, None))
    <|> (x <~ g_insertion_reference total ;; g_insertion_suffix ;~ p_tok (u8 ":") ;~ p_ret (None, Some x))
    <|> (x <~ g_reference_rule total ;; g_amendment_suffix ;~ p_opt (p_tok (u8 ",")) ;~
         p_toks [u8 "és"; u8 "valamint"; u8 "egyidejűleg"] ;~
         y <~ g_insertion_reference total ;; g_insertion_suffix ;~ p_tok (u8 ":") ;~ p_ret (Some x, Some y))) s = None.
Proof.
  intros M g. apply map_no. pose proof (never_none s _ (reference_never s total M)) as R. pose proof (never_none s _ (insertion_never s total M)) as J.
  rewrite or_no; [now apply bind_no|]. rewrite or_no; now apply bind_no.
Qed.
Lemma around_none s : unmixed s -> g_structural_position s = g_division s.
Proof.
  intros M. destruct (around_never s M) as [A B]. unfold g_structural_position. fold g_division.
  rewrite or_no; [reflexivity|]. rewrite or_no; [exact (never_none s _ B)|exact (never_none s _ A)].
Qed.
Lemma structural_found t s g am ins :
  ws t = t -> g_the_act total t = Some (g, s) ->
  (forall st, exists o r, p_opt g_structural_position s = Some (o, r) /\
     p_map (fun x => node_with_act (fun a => GBlockAmendment a (fst x) (snd x)) g) (
        (x <~ g_reference_rule total ;; g_amendment_suffix ;~ p_tok (u8 ":") ;~ p_ret (Some x, None))
    <|> (x <~ g_insertion_reference total ;; g_insertion_suffix ;~ p_tok (u8 ":") ;~ p_ret (None, Some x))
    <|> (x <~ g_reference_rule total ;; g_amendment_suffix ;~ p_opt (p_tok (u8 ",")) ;~
         p_toks [u8 "és"; u8 "valamint"; u8 "egyidejűleg"] ;~
         y <~ g_insertion_reference total ;; g_insertion_suffix ;~ p_tok (u8 ":") ;~ p_ret (Some x, Some y))) r = None /\
     p_map (fun x => node_with_act (fun a => GBlockAmendmentWithSubtitle a st (fst x) (snd x)) g) (
        (x <~ g_reference_with_subtitle total ;; g_amendment_suffix ;~ p_tok (u8 ":") ;~ p_ret (Some x, None))
    <|> (x <~ g_reference_with_subtitle total ;; g_amendment_suffix_with_subtitle ;~ p_tok (u8 ":") ;~ p_ret (Some x, None))
    <|> (g_insertion_token ;~ x <~ g_reference_with_subtitle total ;; g_insertion_suffix ;~ p_tok (u8 ":") ;~
         p_ret (None, Some x))) r = None) ->
  ((x <~ g_any_structural_reference ;; g_amendment_suffix ;~ p_tok (u8 ":") ;~ p_ret (Some x, None))
    <|> (x <~ g_any_structural_reference ;; g_amendment_suffix_with_structural ;~ p_tok (u8 ":") ;~ p_ret (Some x, None))
    <|> (g_insertion_token ;~ x <~ g_any_structural_reference ;; g_insertion_suffix ;~ p_tok (u8 ":") ;~ p_ret (None, Some x))
    <|> (x <~ g_title_insertion_with_book ;; g_insertion_suffix ;~ p_tok (u8 ":") ;~ p_ret (None, Some x))) s = Some ((am, ins), []) ->
  g_start total t = Some (node_with_act (fun a => GBlockAmendmentStructural a am ins) g, []).
Proof.
  intros W A H S. unfold g_start, p_rule at 1. rewrite W. do 6 apply or_yes. rewrite or_no; [|rewrite or_no].
  - apply to_end. unfold g_block_amendment_structural, p_rule at 1. rewrite W, (bind_yes _ _ _ _ _ A). apply (map_yes (fun x => node_with_act (fun a => GBlockAmendmentStructural a (fst x) (snd x)) g) _ _ (am, ins)). exact S.
  - unfold to_the_end. apply bind_no. unfold g_block_amendment_with_subtitle, p_rule at 1. rewrite W, (bind_yes _ _ _ _ _ A). destruct (H None) as (o & r & P & _). rewrite (bind_yes _ _ _ _ _ P). destruct (H o) as (o' & r' & P' & _ & N). rewrite P in P'. injection P' as _ <-. exact N.
  - unfold to_the_end. apply bind_no. unfold g_block_amendment, p_rule at 1. rewrite W, (bind_yes _ _ _ _ _ A). destruct (H None) as (o & r & P & N & _). rewrite (bind_yes _ _ _ _ _ P). exact N.
Qed.
Lemma with_subtitle_none s : unmixed s -> g_subtitle_token s = None -> (g_insertion_token s = None \/ exists x r, g_insertion_token s = Some (x, r) /\ unmixed r /\ g_subtitle_token r = None) -> forall st g,
  p_map (fun x => node_with_act (fun a => GBlockAmendmentWithSubtitle a st (fst x) (snd x)) g) (
        (x <~ g_reference_with_subtitle total ;; g_amendment_suffix ;~ p_tok (u8 ":") ;~ p_ret (Some x, None))
    <|> (x <~ g_reference_with_subtitle total ;; g_amendment_suffix_with_subtitle ;~ p_tok (u8 ":") ;~ p_ret (Some x, None))
    <|> (g_insertion_token ;~ x <~ g_reference_with_subtitle total ;; g_insertion_suffix ;~ p_tok (u8 ":") ;~
         p_ret (None, Some x))) s = None.
Proof.
  intros M N J st g. apply map_no. pose proof (subtitled_none s M N) as R. rewrite or_no; [|rewrite or_no; now apply bind_no].
  destruct J as [J|(x & r & J & M' & N')]; [now apply bind_no|]. rewrite (bind_yes _ _ _ _ _ J). apply bind_no. now apply subtitled_none.
Qed.
End Total.

(** * Sentences *)

Lemma division_endings f : division_ending f -> gap (f ++ u8 ":") /\ unmixed (f ++ u8 ":") /\ untitled (f ++ u8 ":") /\ g_subtitle_token (f ++ u8 ":") = None /\
  (g_insertion_token (f ++ u8 ":") = None \/ exists x r, g_insertion_token (f ++ u8 ":") = Some (x, r) /\ unmixed r /\ g_subtitle_token r = None) /\
  ((exists x, g_amendment_suffix (f ++ u8 ":") = Some (x, u8 ":")) \/ (g_amendment_suffix (f ++ u8 ":") = None /\ exists x, g_amendment_suffix_with_structural (f ++ u8 ":") = Some (x, u8 ":"))).
Proof.
  intros F. assert (I : In f [u8 " helyébe a következő rendelkezés lép"; u8 " helyébe a következő rendelkezések lépnek"; u8 " a következő szöveggel lép hatályba"; u8 " helyébe a következő cím lép"; u8 " helyébe a következő fejezet lép"; u8 " helyébe a következő rész lép"; u8 " helyébe a következő lép"]).
  { destruct F as [[<-|[<-|[<-|[]]]]|[<-|[<-|[<-|[<-|[]]]]]]; cbn; tauto. }
  repeat (destruct I as [<-|I]; [split; [left; reflexivity|]; split; [apply unmixed_check; reflexivity|]; split; [apply untitled_check; reflexivity|]; split; [reflexivity|]; split;
    [first [left; reflexivity|right; do 2 eexists; split; [reflexivity|]; split; [apply unmixed_check; reflexivity|reflexivity]]|first [left; eexists; reflexivity|right; split; [reflexivity|eexists; reflexivity]]]|]). destruct I.
Qed.
Lemma insertion_endings f : insertion_ending f -> gap (f ++ u8 ":") /\ unmixed (f ++ u8 ":") /\ untitled (f ++ u8 ":") /\ exists x, g_insertion_suffix (f ++ u8 ":") = Some (x, u8 ":").
Proof. intros [<-|[<-|[]]]; (split; [left; reflexivity|]; split; [apply unmixed_check; reflexivity|]; split; [apply untitled_check; reflexivity|eexists; reflexivity]). Qed.
Lemma any_division s : (exists c t, s = c :: t /\ isspace_chr c = false) -> g_any_structural_reference (32%N :: s) = g_division s.
Proof. intros (c & t & -> & C). unfold g_any_structural_reference, p_rule. change (ws (32%N :: c :: t)) with (ws (c :: t)). now rewrite ws_solid_head. Qed.
Lemma act_says a k k' m g : says_act a k k' m g -> get_act_id g = Ok a /\ get_act_id_pos g = Ok (k, k').
Proof. intros (A & B & _). now split. Qed.

Lemma amended_found z u a x y m w r f : article_word z -> title_words u -> act_written a x y m -> division_written a w r -> unmixed w -> (sr_subtitle r = None -> untitled w) -> division_ending f ->
  grammar_analyzer (z ++ u ++ x ++ y ++ u8 " " ++ w ++ f ++ u8 ":") = Some (mk_analysis [] [BlockAmendment (ASRef r) false] m).
Proof.
  intros Z V A D M Ut F. set (T := z ++ u ++ x ++ y ++ u8 " " ++ w ++ f ++ u8 ":"). set (n := Z.of_nat (length T)).
  destruct (division_solid a w r D) as (c & t & Hw & C1 & C2 & C3). destruct (division_endings f F) as (G & Mf & Uf & Nf & Jf & Sf).
  assert (Q : exists q, f ++ u8 ":" = 32%N :: q) by (destruct F as [[<-|[<-|[<-|[]]]]|[<-|[<-|[<-|[<-|[]]]]]]; eexists; reflexivity). destruct Q as (q & Q).
  assert (Mq : unmixed q /\ untitled q). { split; [apply Forall_forall; intros v I (b & d & E); rewrite Q in Mf; unfold unmixed in Mf; rewrite Forall_forall in Mf; apply (Mf v I)|intros (b & d & E); rewrite Q in Uf; apply Uf]; exists (32%N :: b), d; now rewrite E. }
  set (s := w ++ f ++ u8 ":"). assert (Ms : unmixed (32%N :: s)). { apply (unmixed_cut [] 32 s); [now left|apply unmixed_check; reflexivity|]. unfold s. rewrite Q. apply unmixed_cut; [now left|exact M|apply Mq]. }
  assert (Us : sr_subtitle r = None -> untitled s). { intros H. unfold s. rewrite Q. apply untitled_cut; [now left|now apply Ut|apply Mq]. }
  assert (Hs : s = c :: t ++ f ++ u8 ":") by (unfold s; now rewrite Hw).
  destruct (solid_after c (t ++ f ++ u8 ":") C1 C2 C3) as (B1 & B2 & B3 & _). rewrite <- Hs in B1, B2, B3.
  destruct (the_act_reads n z u a x y m (32%N :: s) Z V A (gap_space _) B1 B2 B3) as (g & H & Y). destruct (act_says _ _ _ _ _ Y) as [Ya _].
  destruct (division_reads a w r (f ++ u8 ":") D G Us) as (d & Rd & Cd). fold s in Rd.
  assert (W : ws T = T) by (unfold T, article_word in *; destruct Z as [<-|[<-|[<-|[<-|[]]]]]; reflexivity).
  assert (An : g_any_structural_reference (32%N :: s) = Some (d, f ++ u8 ":")) by (rewrite any_division; [exact Rd|rewrite Hs; eauto]).
  eapply node_found; [|exact Y|].
  - fold n. apply (structural_found n T (32%N :: s) g (Some d) None W H).
    + intros st. exists (Some d), (f ++ u8 ":"). split; [apply opt_yes; rewrite (around_none _ Ms), division_space; exact Rd|]. split; [now apply block_none|now apply with_subtitle_none].
    + do 2 apply or_yes. destruct Sf as [(e & E)|(E & e & E')].
      * apply or_yes. rewrite (bind_yes _ _ _ _ _ An), (bind_yes _ _ _ _ _ E). reflexivity.
      * rewrite or_no; [|rewrite (bind_yes _ _ _ _ _ An); now apply bind_no]. rewrite (bind_yes _ _ _ _ _ An), (bind_yes _ _ _ _ _ E'). reflexivity.
  - cbn [convert_single_node]. unfold structural_to_block. rewrite Ya. cbn [bind]. rewrite Cd. reflexivity.
Qed.
Lemma inserted_found z u a x y m w r f : article_word z -> title_words u -> act_written a x y m -> division_written a w r -> unmixed w -> untitled w -> insertion_ending f ->
  grammar_analyzer (z ++ u ++ x ++ y ++ u8 " a következő " ++ w ++ f ++ u8 ":") = Some (mk_analysis [] [BlockAmendment (ASRef r) true] m).
Proof.
  intros Z V A D M Ut F. set (T := z ++ u ++ x ++ y ++ u8 " a következő " ++ w ++ f ++ u8 ":"). set (n := Z.of_nat (length T)).
  destruct (division_solid a w r D) as (c & t & Hw & C1 & C2 & C3). destruct (insertion_endings f F) as (G & Mf & Uf & e & E).
  assert (Q : exists q, f ++ u8 ":" = 32%N :: q) by (destruct F as [<-|[<-|[]]]; eexists; reflexivity). destruct Q as (q & Q).
  assert (Mq : unmixed q /\ untitled q). { split; [apply Forall_forall; intros v I (b & d & E'); rewrite Q in Mf; unfold unmixed in Mf; rewrite Forall_forall in Mf; apply (Mf v I)|intros (b & d & E'); rewrite Q in Uf; apply Uf]; exists (32%N :: b), d; now rewrite E'. }
  set (s := w ++ f ++ u8 ":"). assert (Ms : unmixed s) by (unfold s; rewrite Q; apply unmixed_cut; [now left|exact M|apply Mq]). assert (Us : untitled s) by (unfold s; rewrite Q; apply untitled_cut; [now left|exact Ut|apply Mq]).
  assert (Mt : unmixed (u8 " a következő " ++ s)) by (apply (unmixed_cut (u8 " a következő") 32 s); [now left|apply unmixed_check; reflexivity|exact Ms]).
  assert (Mo : unmixed (32%N :: s)) by (apply (unmixed_cut [] 32 s); [now left|apply unmixed_check; reflexivity|exact Ms]).
  assert (Ux : untitled (u8 " a következő " ++ s)) by (apply (untitled_cut (u8 " a következő") 32 s); [now left|apply untitled_check; reflexivity|exact Us]).
  assert (Hs : s = c :: t ++ f ++ u8 ":") by (unfold s; now rewrite Hw).
  destruct (solid_after c (t ++ f ++ u8 ":") C1 C2 C3) as (_ & _ & _ & B4). rewrite <- Hs in B4.
  assert (B1 : no_bracket (u8 " a következő " ++ s)) by (left; discriminate). assert (B2 : no_more (u8 " a következő " ++ s)) by (intros v b I H; cbn in I; repeat (destruct I as [<-|I]; [discriminate H|]); destruct I).
  destruct (the_act_reads n z u a x y m (u8 " a következő " ++ s) Z V A (gap_space _) B1 B2 eq_refl) as (g & H & Y). destruct (act_says _ _ _ _ _ Y) as [Ya _].
  destruct (division_reads a w r (f ++ u8 ":") D G (fun _ => Us)) as (d & Rd & Cd). fold s in Rd.
  assert (W : ws T = T) by (unfold T, article_word in *; destruct Z as [<-|[<-|[<-|[<-|[]]]]]; reflexivity).
  assert (An : g_any_structural_reference (32%N :: s) = Some (d, f ++ u8 ":")) by (rewrite any_division; [exact Rd|rewrite Hs; eauto]).
  assert (Tn : g_subtitle_title (u8 " a következő " ++ s) = None) by exact (never_none _ g_subtitle_title (subtitle_title_never _ Ux)).
  assert (Dn : g_division (u8 " a következő " ++ s) = None) by (unfold g_division; rewrite or_no; [reflexivity|]; rewrite or_no; [reflexivity|]; rewrite or_no; [reflexivity|]; rewrite or_no; [exact Tn|reflexivity]).
  assert (Tk : g_insertion_token (u8 " a következő " ++ s) = Some (u8 "a következő", 32%N :: s)) by reflexivity.
  assert (Dm : g_any_structural_reference (u8 " a következő " ++ s) = None).
  { change (u8 " a következő " ++ s) with (32%N :: u8 "a következő " ++ s). rewrite any_division by (do 2 eexists; split; reflexivity). rewrite <- division_space. exact Dn. }
  eapply node_found; [|exact Y|].
  - fold n. apply (structural_found n T (u8 " a következő " ++ s) g None (Some d) W H).
    + intros st. exists None, (u8 " a következő " ++ s). split; [apply opt_no; rewrite (around_none _ Mt); exact Dn|]. split; [now apply block_none|]. apply with_subtitle_none; [exact Mt|reflexivity|]. right. exists (u8 "a következő"), (32%N :: s). auto.
    + apply or_yes. rewrite or_no; [|rewrite or_no; now apply bind_no]. rewrite (bind_yes _ _ _ _ _ Tk), (bind_yes _ _ _ _ _ An), (bind_yes _ _ _ _ _ E). reflexivity.
  - cbn [convert_single_node]. unfold structural_to_block. rewrite Ya. cbn [bind]. rewrite Cd. reflexivity.
Qed.
Lemma repealed_found h z u a x y m w r k : In h [u8 "Nem lép hatályba"; u8 "Hatályát veszti"] -> quote_article z -> words u -> spaced u -> act_written a x y m -> k = size h + size z + size u ->
  division_written a w r -> unmixed w -> (sr_subtitle r = None -> untitled w) ->
  grammar_analyzer (h ++ z ++ u ++ x ++ y ++ u8 " " ++ w ++ u8 ".") = Some (mk_analysis [mk_outgoing k (k + size x) (act_only a)] [Repeal (ASRef r) None] m).
Proof.
  intros Hw Z Wu Su A K D M Ut. set (T := h ++ z ++ u ++ x ++ y ++ u8 " " ++ w ++ u8 "."). set (n := Z.of_nat (length T)).
  destruct (division_solid a w r D) as (c & t & Ew & C1 & C2 & C3). set (s := w ++ u8 "."). assert (Hs : s = c :: t ++ u8 ".") by (unfold s; now rewrite Ew).
  destruct (solid_after c (t ++ u8 ".") C1 C2 C3) as (B1 & B2 & B3 & _). rewrite <- Hs in B1, B2, B3.
  assert (Ms : unmixed s) by (apply (unmixed_cut w 46 []); [right; now left|exact M|apply unmixed_check; reflexivity]). assert (Mo : unmixed (32%N :: s)) by (apply (unmixed_cut [] 32 s); [now left|apply unmixed_check; reflexivity|exact Ms]).
  assert (Us : sr_subtitle r = None -> untitled s) by (intros H; apply (untitled_cut w 46 []); [right; now left|now apply Ut|apply untitled_check; reflexivity]).
  destruct (repealed_reads n h z u a x y m (32%N :: s) Hw Z Wu Su A (gap_space _) B1 B2 B3) as (g & H & Y).
  destruct (division_reads a w r (u8 ".") D ltac:(right; now left) Us) as (d & Rd & Cd). fold s in Rd.
  assert (W : ws T = T) by (unfold T in *; destruct Hw as [<-|[<-|[]]]; reflexivity).
  assert (Pos : says_act a k (k + size x) m g).
  { destruct Y as (Y1 & Y2 & Y3). split; [exact Y1|]. split; [|exact Y3]. rewrite Y2. f_equal. f_equal; subst k n T s; unfold pos_of, size; rewrite !app_length; cbn [length]; rewrite ?app_length; cbn [length]; lia. }
  destruct (act_says _ _ _ _ _ Pos) as [Ya Yp].
  assert (NA : g_the_act n T = None). { unfold g_the_act. apply bind_no. unfold T in *. destruct Hw as [<-|[<-|[]]]; reflexivity. }
  assert (SR : g_structural_repeal n T = Some (node_with_act (fun a => GStructuralRepeal a d) g, [])).
  { unfold g_structural_repeal, p_rule at 1. rewrite W. change T with (h ++ z ++ u ++ x ++ y ++ 32%N :: s). rewrite (bind_yes _ _ _ _ _ H). rewrite (bind_yes _ _ _ d (u8 ".")) by (rewrite (around_none _ Mo), division_space; exact Rd). reflexivity. }
  eapply node_found; [|exact Pos|].
  - fold n. unfold g_start, p_rule at 1. apply or_yes. rewrite or_no; [apply to_end; rewrite W; exact SR|]. rewrite W.
    rewrite or_no. { unfold to_the_end. apply bind_no. unfold g_repeal, p_rule at 1. rewrite W. change T with (h ++ z ++ u ++ x ++ y ++ 32%N :: s). rewrite (bind_yes _ _ _ _ _ H). apply bind_no. apply bind_no. apply bind_no. exact (never_none _ _ (reference_never _ n Mo)). }
    rewrite or_no; [unfold to_the_end, g_enforcement_date, p_rule; apply bind_no; rewrite W; apply bind_no; unfold T in *; destruct Hw as [<-|[<-|[]]]; reflexivity|].
    rewrite or_no; [unfold to_the_end, g_article_title_amendment, p_rule at 1; apply bind_no; rewrite W; now apply bind_no|].
    rewrite or_no; [unfold to_the_end, g_text_amendment, p_rule at 1; apply bind_no; rewrite W; now apply bind_no|].
    rewrite or_no; [unfold to_the_end, g_block_amendment_structural, p_rule at 1; apply bind_no; rewrite W; now apply bind_no|].
    rewrite or_no; [unfold to_the_end, g_block_amendment_with_subtitle, p_rule at 1; apply bind_no; rewrite W; now apply bind_no|].
    unfold to_the_end, g_block_amendment, p_rule at 1; apply bind_no; rewrite W; now apply bind_no.
  - cbn [convert_single_node]. unfold structural_repeal_to_repeal, act_outgoing. rewrite Ya, Yp. cbn [bind]. rewrite Cd. reflexivity.
Qed.
Lemma ordinal_unmixed w i : ordinal_written w i -> unmixed w /\ untitled w.
Proof. revert w i. each_ordinal; (split; [apply unmixed_check; reflexivity|apply untitled_check; reflexivity]). Qed.
Lemma ordinal_books w i : ordinal_written w i -> forall s, g_subtitle_number (32%N :: w ++ u8 " Könyve a " ++ s) = None /\ g_part_number (32%N :: w ++ u8 " Könyve a " ++ s) = None /\ g_title_number (32%N :: w ++ u8 " Könyve a " ++ s) = None /\
  g_insertion_token (32%N :: w ++ u8 " Könyve a " ++ s) = None.
Proof. revert w i. each_ordinal; intros s; repeat split; reflexivity. Qed.
Lemma titled_found z u a x y m b j w i e f : article_word z -> title_words u -> act_written a x y m -> ordinal_written b j -> numeral_written w i -> ending e -> unmixed (w ++ u8 ". Cím" ++ e) -> untitled (w ++ u8 ". Cím" ++ e) -> insertion_ending f ->
  grammar_analyzer (z ++ u ++ x ++ y ++ u8 " " ++ b ++ u8 " Könyve a következő " ++ w ++ u8 ". Cím" ++ e ++ f ++ u8 ":") = Some (mk_analysis [] [BlockAmendment (ASRef (mk_sref (Some a) (Some j) None (Some i) None None None)) true] m).
Proof.
  intros Z V A O N Ee M Ut F. set (T := z ++ u ++ x ++ y ++ u8 " " ++ b ++ u8 " Könyve a következő " ++ w ++ u8 ". Cím" ++ e ++ f ++ u8 ":"). set (n := Z.of_nat (length T)).
  destruct (ordinal_solid b j O) as (c & t & Hb & C1 & C2 & C3 & _). destruct (insertion_endings f F) as (G & Mf & Uf & q & E). destruct (ordinal_unmixed b j O) as [Mb Ub].
  set (s := w ++ u8 ". Cím" ++ e ++ f ++ u8 ":"). assert (Ms : unmixed s /\ untitled s).
  { assert (Q : exists q, f ++ u8 ":" = 32%N :: q /\ unmixed q /\ untitled q) by (destruct F as [<-|[<-|[]]]; eexists; (split; [reflexivity|]; split; [apply unmixed_check; reflexivity|apply untitled_check; reflexivity])).
    destruct Q as (p & Q & Q1 & Q2). replace s with ((w ++ u8 ". Cím" ++ e) ++ 32%N :: p) by (unfold s; rewrite <- Q, <- !app_assoc; reflexivity). split; [apply unmixed_cut|apply untitled_cut]; auto; now left. }
  destruct Ms as [Ms Us]. set (k := b ++ u8 " Könyve a következő " ++ s). change T with (z ++ u ++ x ++ y ++ 32%N :: k).
  assert (Mk : unmixed (32%N :: k)).
  { apply (unmixed_cut [] 32 k); [now left|apply unmixed_check; reflexivity|]. apply (unmixed_cut b 32 (u8 "Könyve a következő " ++ s)); [now left|exact Mb|]. apply (unmixed_cut (u8 "Könyve a következő") 32 s); [now left|apply unmixed_check; reflexivity|exact Ms]. }
  assert (Uk : untitled (32%N :: k)).
  { apply (untitled_cut [] 32 k); [now left|apply untitled_check; reflexivity|]. apply (untitled_cut b 32 (u8 "Könyve a következő " ++ s)); [now left|exact Ub|]. apply (untitled_cut (u8 "Könyve a következő") 32 s); [now left|apply untitled_check; reflexivity|exact Us]. }
  assert (Hk : k = c :: t ++ u8 " Könyve a következő " ++ s) by (unfold k; now rewrite Hb).
  destruct (solid_after c (t ++ u8 " Könyve a következő " ++ s) C1 C2 C3) as (B1 & B2 & B3 & B4). rewrite <- Hk in B1, B2, B3, B4.
  destruct (the_act_reads n z u a x y m (32%N :: k) Z V A (gap_space _) B1 B2 B3) as (g & H & Y). destruct (act_says _ _ _ _ _ Y) as [Ya _].
  assert (W : ws T = T) by (unfold T, article_word in *; destruct Z as [<-|[<-|[<-|[<-|[]]]]]; reflexivity).
  assert (Tn : g_subtitle_title (32%N :: k) = None) by exact (never_none _ g_subtitle_title (subtitle_title_never _ Uk)).
  destruct (ordinal_books b j O (u8 "következő " ++ s)) as (N1 & N2 & N3 & N4). change (32%N :: b ++ u8 " Könyve a " ++ u8 "következő " ++ s) with (32%N :: k) in N1, N2, N3, N4.
  assert (N5 : g_chapter_number (32%N :: k) = None) by exact (ordinal_chapter b j O (u8 "Könyve a következő " ++ s)).
  assert (Dn : g_division (32%N :: k) = None) by (unfold g_division; repeat (rewrite or_no; [assumption|]); assumption).
  assert (Dm : g_any_structural_reference (32%N :: k) = None) by (rewrite any_division by (rewrite Hk; eauto); exact Dn).
  destruct (numeral_reads w i (32%N :: u8 "Cím" ++ e ++ f ++ u8 ":") N) as (l & L & C & K). destruct (unit_reads_after (u8 "Cím") e (f ++ u8 ":") eq_refl Ee G) as (v & X). destruct (ordinal_number b j O) as (o & Ho & Hj).
  assert (Bk : g_title_insertion_with_book (32%N :: k) = Some (GTitleNumber (Some b) l, f ++ u8 ":")).
  { unfold g_title_insertion_with_book. rewrite rule_space by reflexivity. unfold p_rule. replace (ws k) with k by (rewrite Hk; symmetry; now apply ws_solid_head). unfold k.
    rewrite (bind_yes _ _ _ _ _ (ordinal_reads b j O (u8 "Könyve a következő " ++ s))). rewrite (bind_yes _ _ _ (u8 "Könyve") (u8 " a következő " ++ s)) by reflexivity. rewrite (bind_yes _ _ _ (u8 "a következő") (32%N :: s)) by reflexivity.
    rewrite (bind_yes _ _ _ l (46%N :: 32%N :: u8 "Cím" ++ e ++ f ++ u8 ":")) by (unfold g_id_with_letter, g_roman; rewrite <- L; unfold p_bind; rewrite rule_space by reflexivity; reflexivity).
    rewrite (bind_yes _ _ _ _ _ (dot_reads _)), (bind_yes _ _ _ _ _ X). reflexivity. }
  eapply node_found; [|exact Y|].
  - change (length (z ++ u ++ x ++ y ++ 32%N :: k)) with (length T). fold n. apply (structural_found n T (32%N :: k) g None (Some (GTitleNumber (Some b) l)) W H).
    + intros st. exists None, (32%N :: k). split; [apply opt_no; rewrite (around_none _ Mk); exact Dn|]. split; [now apply block_none|]. apply with_subtitle_none; auto.
    + rewrite or_no; [|rewrite or_no; [now apply bind_no|]; rewrite or_no; now apply bind_no]. rewrite (bind_yes _ _ _ _ _ Bk), (bind_yes _ _ _ _ _ E). reflexivity.
  - cbn [convert_single_node]. unfold structural_to_block. rewrite Ya. cbn [bind]. unfold convert_structural_reference, convert_book_id, identifier_from_string. rewrite Ho, C, K, Hj. reflexivity.
Qed.
Lemma divided_found text refs sd m : divided text refs sd m -> grammar_analyzer text = Some (mk_analysis refs [sd] m).
Proof.
  intros [z u a x y m' w r f Z V A D M Ut F|z u a x y m' w r f Z V A D M Ut F|z u a x y m' b j w i e f Z V A O N E M Ut F|h z u a x y m' w r k H Z V S A K D M Ut];
    [now apply amended_found with (a := a)|now apply inserted_found with (a := a)|now apply titled_found|now apply repealed_found with (a := a)].
Qed.
