(* Sentences that replace and insert at once, read forwards. *)
From Coq Require Import Lia.
From Verif Require Import PyBase PyBaseFacts UnicodeAlnum NumModel IdModel LineModel DateModel RefModel RefSpec TreeModel StructModel SemModel GramModel GramSpec PegModel PegSpec PegSpec2 PegSpec3 PegProofs PegProofs2 PegProofs7 PegProofs10 PegProofs13 PegProofs14 PegProofs22 PegProofs23 PegProofs24 PegProofs25 PegProofs26 PegProofs27 PegProofs28 PegProofs29 PegProofs30 PegProofs31 PegProofs32 PegProofs33 PegProofs34 PegProofs35 CiteSpec CiteProofs CiteProofs2 CiteProofs4 CiteProofs5.
Local Open Scope Z_scope.

Section Total.
Variable total : Z.
Notation next := (u8 " a következő") (only parsing).
Local Notation part_parser := (part_parser total).
Local Notation level_at := (level_at total).

(** * Endings *)

Ltac ending_case a b :=
  apply (words_silent total a b); [now apply words_of|right; right; exists (removelast a), 32%N; split; [reflexivity|reflexivity]| |right; eexists; split; [right; left; reflexivity|reflexivity]|cbn; tauto];
  right; eexists; eexists; split; [reflexivity|]; split; [reflexivity|]; split; [discriminate|]; split; [unfold is_dash; cbn; intuition discriminate|]; split; intros r; discriminate.
Lemma ending_silent f t : amendment_ending f -> silent total (f ++ t).
Proof.
  intros [<-|[<-|[<-|[]]]].
  - change (silent total (u8 " helyébe " ++ u8 "a következő rendelkezés lép" ++ t)). ending_case (u8 " helyébe ") (u8 "a következő rendelkezés lép" ++ t).
  - change (silent total (u8 " helyébe " ++ u8 "a következő rendelkezések lépnek" ++ t)). ending_case (u8 " helyébe ") (u8 "a következő rendelkezések lépnek" ++ t).
  - change (silent total (u8 " a " ++ u8 "következő szöveggel lép hatályba" ++ t)). ending_case (u8 " a ") (u8 "következő szöveggel lép hatályba" ++ t).
Qed.
Lemma ending_yes f t : amendment_ending f -> exists x, g_amendment_suffix (f ++ t) = Some (x, t).
Proof. intros [<-|[<-|[<-|[]]]]; eexists; reflexivity. Qed.
(* nothing that is inserted follows *)
Definition stops (s : pystr) : Prop := g_insertion_token s = None \/ exists x s', g_insertion_token s = Some (x, s') /\ partless total s'.
Lemma ending_stops f t : amendment_ending f -> stops (f ++ t).
Proof.
  intros [<-|[<-|[<-|[]]]]; [left; reflexivity|left; reflexivity|]. right. exists (u8 "a következő"), (u8 " szöveggel lép hatályba" ++ t). split; [reflexivity|].
  apply (word_quiet total (u8 " szöveggel") (u8 "lép hatályba" ++ t)); [reflexivity|exists 115%N; split; [cbn; tauto|reflexivity]|]. right. eexists. eexists. split; [reflexivity|]. split; [reflexivity|]. split; [discriminate|]. split; [unfold is_dash; cbn; intuition discriminate|]. split; intros r; discriminate.
Qed.

(** * What is amended is not inserted *)

Lemma stops_no {A} (p : parser A) (s : pystr) : stops s -> (forall s', partless total s' -> p s' = None) -> (g_insertion_token ;~ p) s = None.
Proof. intros [N|(x & s' & T & P)] H; [now apply bind_no|]. rewrite (bind_yes _ _ _ _ _ T). now apply H. Qed.
Lemma level_stops k p w s : level_at k w p s -> w <> [] -> stops (w ++ s). Proof. intros W N. left. now apply (level_no_next total k p). Qed.
Lemma listed_stops k p w s : level_at k w p s -> stops s -> stops (w ++ s).
Proof. intros W S. destruct (listed_nonempty w) as [->|N]; [exact S|]. now apply (level_stops k p). Qed.
Lemma partless_point s : partless total s -> g_any_point total s = None. Proof. intros P. unfold g_any_point. rewrite or_no; [apply (P PNumericPoint)|apply (P PAlphabeticPoint)]. Qed.
Lemma partless_subpoint s : partless total s -> g_any_subpoint total s = None. Proof. intros P. unfold g_any_subpoint. rewrite or_no; [apply (P PNumericSubpoint)|apply (P PAlphabeticSubpoint)]. Qed.
Lemma listed_mild k p w s : level_at k w p s -> mild s -> mild (w ++ s).
Proof. intros W M. destruct (listed_nonempty w) as [->|N]; [exact M|]. exact (level_mild total k p w s s W N). Qed.
Lemma starts_no_a t : starts t -> forall r, t <> 97%N :: 32%N :: r.
Proof.
  intros B r H. destruct B as [n z N _|n z N _|c z C|c z C Z|c d z C F Z].
  - destruct (digits_head n N) as (c & m & -> & C). injection H as -> _. discriminate C.
  - destruct (digits_head n N) as (c & m & -> & C). injection H as -> _. discriminate C.
  - discriminate H.
  - destruct z as [|e z]; [discriminate H|]. injection H as _ -> _. cbn in Z. intuition discriminate.
  - injection H as _ -> _. unfold is_small in F. lia.
Qed.
Lemma level_no_a k p w s v : level_at k w p s -> w <> [] -> p_tok (97%N :: 32%N :: v) (w ++ s) = None.
Proof.
  intros W N. destruct (level_shape total k w p s W N) as (x & -> & B). apply tok_none. intros r. cbn [app]. rewrite ws_space. destruct (starts_opens _ (proj1 (B s))) as [_ E]. rewrite E. apply (starts_no_a _ (proj1 (B s))).
Qed.
Lemma first_level_at w v z x a p q r s : level_at 1 w a (v ++ z ++ x ++ s) -> level_at 2 v p (z ++ x ++ s) -> level_at 3 z q (x ++ s) -> level_at 4 x r s -> w ++ v ++ z ++ x <> [] ->
  exists k b u t, level_at k u b t /\ u <> [] /\ w ++ v ++ z ++ x ++ s = u ++ t /\ (w = [] -> (2 <= k)%nat).
Proof.
  intros W V Z X N. destruct (listed_nonempty w) as [->|NW]; [|exists 1%nat, a, w, (v ++ z ++ x ++ s); split; [exact W|]; split; [exact NW|]; split; [reflexivity|]; intros H; contradiction].
  destruct (listed_nonempty v) as [->|NV]; [|exists 2%nat, p, v, (z ++ x ++ s); split; [exact V|]; split; [exact NV|]; split; [reflexivity|]; lia].
  destruct (listed_nonempty z) as [->|NZ]; [|exists 3%nat, q, z, (x ++ s); split; [exact Z|]; split; [exact NZ|]; split; [reflexivity|]; lia]. exists 4%nat, r, x, s. split; [exact X|]. split; [exact N|]. split; [reflexivity|lia].
Qed.
Lemma amended_not_inserted w v z x a p q r s : level_at 1 w a (v ++ z ++ x ++ s) -> level_at 2 v p (z ++ x ++ s) -> level_at 3 z q (x ++ s) -> level_at 4 x r s ->
  w ++ v ++ z ++ x <> [] -> x = [] \/ z <> [] \/ w = [] -> silent total s -> stops s -> insertion_parts total (w ++ v ++ z ++ x ++ s) = None.
Proof.
  intros W V Z X N D S T. pose proof (silent_mild total s S) as M. destruct (first_level_at _ _ _ _ _ _ _ _ _ W V Z X N) as (k & b & u & t & U & NU & E & K).
  assert (TN : g_insertion_token (w ++ v ++ z ++ x ++ s) = None) by (rewrite E; now apply (level_no_next total k b)).
  assert (TA : forall y, p_tok (97%N :: 32%N :: y) (w ++ v ++ z ++ x ++ s) = None) by (intros y; rewrite E; now apply (level_no_a k b)).
  assert (SX : stops (x ++ s)) by now apply (listed_stops 4 r). assert (SZ : stops (z ++ x ++ s)) by now apply (listed_stops 3 q). assert (SV : stops (v ++ z ++ x ++ s)) by now apply (listed_stops 2 p).
  assert (MX : mild (x ++ s)) by now apply (listed_mild 4 r). assert (MZ : mild (z ++ x ++ s)) by now apply (listed_mild 3 q). assert (MV : mild (v ++ z ++ x ++ s)) by now apply (listed_mild 2 p).
  assert (PZ : v = [] -> g_paragraph_reference total (z ++ x ++ s) = None).
  { intros _. destruct (listed_nonempty z) as [->|NZ]; [|apply (paragraph_passed total 3 q z (x ++ s)); [lia|exact Z|exact NZ]]. destruct (listed_nonempty x) as [->|NX]; [apply (proj1 S PParagraph)|]. apply (paragraph_passed total 4 r x s); [lia|exact X|exact NX]. }
  unfold insertion_parts. rewrite or_no; [|rewrite or_no; [|rewrite or_no]].
  - destruct (listed_nonempty w) as [->|NW].
    + apply bind_no, bind_no. rewrite E. unfold g_az_article. rewrite (bind_yes _ _ _ _ _ (level_no_az total _ _ _ t U NU)). apply (article_passed total k b u t); auto.
    + destruct (article_and_paragraph total a w p v (z ++ x ++ s) _ W NW V MZ PZ (or_intror eq_refl)) as (l & l' & G & _). rewrite (bind_yes _ _ _ _ _ G).
      destruct (listed_nonempty z) as [->|NZ]; [|destruct (any_point_reads total q z (x ++ s) Z NZ MX) as (g & G' & _); rewrite (bind_yes _ _ _ _ _ G'); apply stops_no; [exact SX|]; intros s' P; now apply bind_no, partless_subpoint].
      apply bind_no. destruct D as [->|[D|D]]; [|now destruct D|contradiction]. apply partless_point. exact (proj1 S).
  - destruct (listed_nonempty w) as [->|NW].
    + rewrite (bind_yes _ _ _ None ([] ++ v ++ z ++ x ++ s)); [exact (bind_no _ _ _ TN)|]. apply opt_no. rewrite or_no; [|rewrite or_no].
      * apply (map_no (fun _ : pystr => @nil g_part)). apply TA.
      * apply (map_no (fun _ : pystr => @nil g_part)). apply TA.
      * apply bind_no. rewrite E. unfold g_az_article. rewrite (bind_yes _ _ _ _ _ (level_no_az total _ _ _ t U NU)). apply (article_passed total k b u t); auto.
    + destruct (article_and_paragraph total a w p v (z ++ x ++ s) _ W NW V MZ PZ (or_intror eq_refl)) as (l & l' & G & _). rewrite (bind_yes _ _ _ (Some (l ++ l')) (z ++ x ++ s)); [|now apply opt_yes, or_yes, or_yes].
      apply stops_no; [exact SZ|]. intros s' P. now apply bind_no, partless_point.
  - destruct (listed_nonempty w) as [->|NW].
    + rewrite (bind_yes _ _ _ None ([] ++ v ++ z ++ x ++ s)); [exact (bind_no _ _ _ TN)|]. apply opt_no. rewrite or_no.
      * apply (map_no (fun _ : pystr => @nil g_part)). apply TA.
      * apply (map_no (fun x => [x])). rewrite E. unfold g_az_article. rewrite (bind_yes _ _ _ _ _ (level_no_az total _ _ _ t U NU)). apply (article_passed total k b u t); auto.
    + destruct (az_article_reads total a w (v ++ z ++ x ++ s) W NW MV) as (g & G & _). rewrite (bind_yes _ _ _ (Some [g]) (v ++ z ++ x ++ s)); [|apply opt_yes, or_yes; now apply (map_yes (fun x => [x]))].
      apply stops_no; [exact SV|]. intros s' P. apply bind_no. apply (P PParagraph).
  - now apply bind_no.
Qed.
Lemma amendment_no_insertion act k w out s : reference_listed act k w out -> pos_of total (w ++ s) = k -> silent total s -> stops s -> simple_insertion total (u8 " " ++ w ++ s) = None.
Proof.
  intros (a & p & q & r & la & lp & lq & lr & A & P & Q & R & E & D & _) K S T. unfold simple_insertion. apply bind_no. unfold g_insertion_reference, reference_of. fold (insertion_parts total). apply (map_no (fun x => mk_greference (fst x) (snd x))). apply span_no. rewrite blind_insertion.
  assert (E' : u8 " " ++ w ++ s = a ++ p ++ q ++ r ++ s) by (rewrite app_assoc, <- E, <- !app_assoc; reflexivity). rewrite E'.
  assert (KK : pos_of total (a ++ p ++ q ++ r ++ s) = k - 1) by (rewrite <- E', pos_app; change (size (u8 " ")) with 1; lia).
  apply (amended_not_inserted a p q r la lp lq lr s); auto.
  - eapply level_place; [exact A|]. exact KK.
  - eapply level_place; [exact P|]. rewrite (pos_app total a) in KK. lia.
  - eapply level_place; [exact Q|]. rewrite (pos_app total a), (pos_app total p) in KK. lia.
  - eapply level_place; [exact R|]. rewrite (pos_app total a), (pos_app total p), (pos_app total q) in KK. lia.
  - rewrite E. discriminate.
  - tauto.
Qed.

(** * What is inserted *)

Lemma same_article n v p s : level_at n v p s -> v <> [] -> g_az_article total (u8 " a §" ++ next ++ v ++ s) = None /\ g_az_article total (u8 " a bekezdés" ++ next ++ v ++ s) = None.
Proof.
  intros V N. assert (O : opens (u8 "a következő" ++ v ++ s)). { right. eexists. eexists. split; [reflexivity|]. split; [reflexivity|]. split; [discriminate|]. split; [unfold is_dash; cbn; intuition discriminate|]. split; intros r; discriminate. }
  split; unfold g_az_article.
  - assert (A : exists x, p_opt g_az (u8 " a §" ++ next ++ v ++ s) = Some (x, u8 "§" ++ next ++ v ++ s)) by (eexists; reflexivity). destruct A as (x & A). rewrite (bind_yes _ _ _ _ _ A).
    refine (word_quiet total (u8 "§") (u8 "a következő" ++ v ++ s) _ _ _ PArticle); [reflexivity|exists 167%N; split; [cbn; tauto|reflexivity]|exact O].
  - assert (A : exists x, p_opt g_az (u8 " a bekezdés" ++ next ++ v ++ s) = Some (x, u8 "bekezdés" ++ next ++ v ++ s)) by (eexists; reflexivity). destruct A as (x & A). rewrite (bind_yes _ _ _ _ _ A).
    refine (word_quiet total (u8 "bekezdés") (u8 "a következő" ++ v ++ s) _ _ _ PArticle); [reflexivity|exists 98%N; split; [cbn; tauto|reflexivity]|exact O].
Qed.
Lemma joint_reads act k i out s : joint_insertion act k i out -> pos_of total (i ++ s) = k -> silent total s ->
  exists g, g_insertion_reference total (i ++ s) = Some (g, s) /\ convert_single_in_text_reference act g = Ok out.
Proof.
  intros J K S. pose proof (silent_mild total s S) as M.
  assert (F : forall l1 l2 p q c t, insertion_parts total (i ++ s) = Some (l1 ++ l2, s) -> says_list 2 p l1 -> says_list 3 q l2 -> i = 32%N :: c :: t -> isspace_chr c = false ->
    cites 1 [[]; p; q; []] (no_parts act) (k + 1) (k + size i) out -> exists g, g_insertion_reference total (i ++ s) = Some (g, s) /\ convert_single_in_text_reference act g = Ok out).
  { intros l1 l2 p q c t G Y1 Y2 -> C CI. exists (mk_greference (l1 ++ l2) (pos_of total (ws ((32%N :: c :: t) ++ s)), pos_of total s)). split.
    - unfold g_insertion_reference, reference_of. fold (insertion_parts total). apply (map_yes (fun x => mk_greference (fst x) (snd x)) _ _ (l1 ++ l2, _)). apply span_yes. now rewrite blind_insertion.
    - replace (l1 ++ l2) with ([] ++ l1 ++ l2 ++ []) by (cbn [app]; now rewrite app_nil_r). apply (list_converts act [] l1 l2 [] [] p q []); [now left|exact Y1|exact Y2|now left|].
      replace (pos_of total (ws ((32%N :: c :: t) ++ s))) with (k + 1); [replace (pos_of total s) with (k + size (32%N :: c :: t)); [exact CI|]|].
      + rewrite pos_app in K. lia.
      + cbn [app] in *. rewrite ws_space, ws_solid_head by exact C. unfold pos_of in *. cbn [length] in *. lia. }
  destruct J as [i out I|v p out i E V N CI|j v p out i D E V N CI].
  - exact (insertion_reads total act k i out s I K S).
  - assert (L : level_at 2 v p s) by (eapply level_place; [exact V|]; rewrite E, <- !app_assoc in K; rewrite !pos_app in *; rewrite ?size_app; lia).
    destruct (paragraph_reads total p v s L N M) as (g & G & Y). apply (F [g] [] p [] 97%N (u8 " §" ++ next ++ v)); [|exact Y|now left|exact E|reflexivity|exact CI]. rewrite E, <- !app_assoc.
    unfold insertion_parts. do 2 apply or_yes. rewrite or_no; [|now apply bind_no].
    rewrite (bind_yes _ _ _ (Some []) (next ++ v ++ s)).
    + rewrite (bind_yes _ _ _ _ _ (next_yes total 2 p v s L N)), (bind_yes _ _ _ _ _ G). reflexivity.
    + apply opt_yes. rewrite or_no; [reflexivity|]. apply (map_no (fun x => [x])). exact (proj1 (same_article 2 v p s L N)).
  - assert (L : level_at 3 v p s) by (eapply level_place; [exact V|]; rewrite E, <- !app_assoc in K; rewrite !pos_app in *; rewrite ?size_app; lia).
    destruct (any_point_reads total p v s L N M) as (g & G & Y). destruct (same_article 3 v p s L N) as [NA NB].
    assert (PN : g_paragraph_reference total (v ++ s) = None) by (apply (paragraph_passed total 3 p v s); [lia|exact L|exact N]).
    destruct D as [<-|[<-|[]]].
    + apply (F [] [g] [] p 97%N (u8 " §" ++ next ++ v)); [|now left|exact Y|exact E|reflexivity|exact CI]. rewrite E, <- !app_assoc. unfold insertion_parts. apply or_yes. rewrite or_no; [|rewrite or_no; [|now apply bind_no]].
      * rewrite (bind_yes _ _ _ (Some []) (next ++ v ++ s)); [rewrite (bind_yes _ _ _ _ _ (next_yes total 3 p v s L N)), (bind_yes _ _ _ _ _ G); reflexivity|].
        apply opt_yes. apply or_yes. rewrite or_no; [reflexivity|]. now apply bind_no.
      * rewrite (bind_yes _ _ _ (Some []) (next ++ v ++ s)); [rewrite (bind_yes _ _ _ _ _ (next_yes total 3 p v s L N)); now apply bind_no|].
        apply opt_yes. rewrite or_no; [reflexivity|]. now apply (map_no (fun x => [x])).
    + apply (F [] [g] [] p 97%N (u8 " bekezdés" ++ next ++ v)); [|now left|exact Y|exact E|reflexivity|exact CI]. rewrite E, <- !app_assoc. unfold insertion_parts. apply or_yes. rewrite or_no; [|rewrite or_no; [|now apply bind_no]].
      * rewrite (bind_yes _ _ _ (Some []) (next ++ v ++ s)); [rewrite (bind_yes _ _ _ _ _ (next_yes total 3 p v s L N)), (bind_yes _ _ _ _ _ G); reflexivity|].
        apply opt_yes. rewrite or_no; [reflexivity|]. rewrite or_no; [reflexivity|]. now apply bind_no.
      * rewrite (bind_yes _ _ _ None (u8 " a bekezdés" ++ next ++ v ++ s)); [now apply bind_no|].
        apply opt_no. rewrite or_no; [reflexivity|]. now apply (map_no (fun x => [x])).
Qed.
Lemma joint_head act k i out s : joint_insertion act k i out -> pos_of total (i ++ s) = k -> exists t, i = 32%N :: t.
Proof.
  intros J K. destruct J as [i out I|v p out i -> _ _ _|j v p out i D -> _ _ _]; [|eexists; reflexivity|destruct D as [<-|[<-|[]]]; eexists; reflexivity]. destruct (insertion_head total act k i out s I K) as (c & t & -> & _). eauto.
Qed.

(** * Both *)

Definition joint_amendment : parser (option g_reference * option g_reference) :=
  x <~ g_reference_rule total ;; g_amendment_suffix ;~ p_opt (p_tok (u8 ",")) ;~ p_toks [u8 "és"; u8 "valamint"; u8 "egyidejűleg"] ;~
  y <~ g_insertion_reference total ;; g_insertion_suffix ;~ p_tok (u8 ":") ;~ p_ret (Some x, Some y).
Lemma conjunction_reads c t : conjunction c -> exists o r x, p_opt (p_tok (u8 ",")) (c ++ 32%N :: t) = Some (o, r) /\ p_toks [u8 "és"; u8 "valamint"; u8 "egyidejűleg"] r = Some (x, 32%N :: t).
Proof. intros C. unfold conjunction in C. repeat (destruct C as [<-|C]; [eexists; eexists; eexists; split; reflexivity|]). destruct C. Qed.
Lemma both_reads a k w am f c k' i ins f' : reference_listed (Some a) k w am -> amendment_ending f -> conjunction c -> joint_insertion (Some a) k' i ins -> insertion_ending f' ->
  pos_of total (w ++ f ++ c ++ i ++ f' ++ u8 ":") = k -> pos_of total (i ++ f' ++ u8 ":") = k' ->
  let s := u8 " " ++ w ++ f ++ c ++ i ++ f' ++ u8 ":" in
  simple_amendment total s = None /\ simple_insertion total s = None /\
  exists g h, joint_amendment s = Some ((Some g, Some h), []) /\ convert_single_in_text_reference (Some a) g = Ok am /\ convert_single_in_text_reference (Some a) h = Ok ins.
Proof.
  intros R F C J F' K K'. cbv zeta. pose proof (ending_silent f (c ++ i ++ f' ++ u8 ":") F) as S. destruct (listed_reference_reads total (Some a) k w am _ R K S) as (g & G & CG). rewrite <- reference_space in G.
  destruct (ending_yes f (c ++ i ++ f' ++ u8 ":") F) as (x & X). destruct (joint_reads (Some a) k' i ins _ J K' (insertion_silent total f' F')) as (h & H & CH). destruct (insertion_yes f' F') as (y & Y).
  destruct (joint_head _ _ _ _ _ J K') as (t & ->). destruct (conjunction_reads c (t ++ f' ++ u8 ":") C) as (o & r & q & O & Q). cbn [app] in H, K'. split; [|split].
  - unfold simple_amendment. rewrite (bind_yes _ _ _ _ _ G), (bind_yes _ _ _ _ _ X). apply bind_no. unfold conjunction in C. repeat (destruct C as [<-|C]; [reflexivity|]). destruct C.
  - exact (amendment_no_insertion _ _ _ _ _ R K S (ending_stops f _ F)).
  - exists g, h. split; [|now split]. unfold joint_amendment. rewrite (bind_yes _ _ _ _ _ G), (bind_yes _ _ _ _ _ X). cbn [app]. rewrite (bind_yes _ _ _ _ _ O), (bind_yes _ _ _ _ _ Q), (bind_yes _ _ _ _ _ H), (bind_yes _ _ _ _ _ Y). reflexivity.
Qed.
Lemma joint_block_reads z u a x y m s am ins : article_word z -> title_words u -> act_written a x y m -> gap s -> no_bracket s -> no_more s -> p_tok in_effect s = None -> unplaced s ->
  simple_amendment total s = None -> simple_insertion total s = None -> joint_amendment s = Some ((am, ins), []) ->
  exists g, g_start total (z ++ u ++ x ++ y ++ s) = Some (node_with_act (fun a => GBlockAmendment a am ins) g, []) /\
    says_act a (pos_of total (x ++ y ++ s)) (pos_of total (y ++ s)) m g.
Proof.
  intros Z U A G B M I P S1 S2 S3. destruct (the_act_reads total z u a x y m s Z U A G B M I) as (g & T & Y). exists g. split; [|exact Y].
  assert (W : ws (z ++ u ++ x ++ y ++ s) = z ++ u ++ x ++ y ++ s) by (unfold article_word in Z; destruct Z as [<-|[<-|[<-|[<-|[]]]]]; reflexivity).
  unfold g_start, p_rule at 1. rewrite W. do 8 apply or_yes. unfold to_the_end. rewrite (bind_yes _ _ _ (node_with_act (fun a => GBlockAmendment a am ins) g) []); [reflexivity|].
  unfold g_block_amendment, p_rule at 1. rewrite W. rewrite (bind_yes _ _ _ _ _ T), (bind_yes _ _ _ _ _ (structural_none s P)). fold (simple_amendment total) (simple_insertion total) joint_amendment.
  apply (map_yes (fun x => node_with_act (fun a => GBlockAmendment a (fst x) (snd x)) g) _ _ (am, ins)). rewrite or_no; [exact S3|]. now rewrite or_no.
Qed.
End Total.

Lemma joint_unplaced f c : amendment_ending f -> conjunction c -> exists f0, f = 32%N :: f0 /\ unplaced (f0 ++ c).
Proof.
  unfold amendment_ending, conjunction. intros [<-|[<-|[<-|[]]]] C; (eexists; split; [reflexivity|]); repeat (destruct C as [<-|C]; [now apply unplaced_check|]); destruct C.
Qed.
Lemma both_parsed text act am ins m : both_written text act am ins m ->
  exists a h g g', g_start (Z.of_nat (length text)) text = Some (node_with_act (fun a => GBlockAmendment a (Some g) (Some g')) h, []) /\ says_act a (or_start act) (or_end act) m h /\ act = mk_outgoing (or_start act) (or_end act) (act_only a) /\
    convert_single_in_text_reference (Some a) g = Ok am /\ convert_single_in_text_reference (Some a) g' = Ok ins.
Proof.
  intros W. destruct W as [z u a x y m w am f c i ins f' k k' Z Tw A -> -> R P F C J P' F'].
  set (T := z ++ u ++ x ++ y ++ u8 " " ++ w ++ f ++ c ++ i ++ f' ++ u8 ":"). set (n := Z.of_nat (length T)). pose proof (reference_starts _ _ w am (f ++ c ++ i ++ f' ++ u8 ":") R) as Bt.
  assert (K : pos_of n T = 0) by (unfold pos_of, n; lia). unfold T in K. rewrite !pos_app in K. change (size (u8 " ")) with 1 in K.
  assert (K2 : pos_of n (i ++ f' ++ u8 ":") = size z + size u + size x + size y + 1 + size w + size f + size c) by (rewrite !pos_app; lia).
  destruct (both_reads n a _ w am f c _ i ins f' R F C J F') as (S1 & S2 & g & g' & G & CG & CG'); [rewrite !pos_app; lia|exact K2|].
  destruct (joint_head n _ _ _ _ _ J K2) as (t & Et). assert (PP : unplaced (u8 " " ++ w ++ f ++ c ++ i ++ f' ++ u8 ":")).
  { assert (P2 : unplaced (i ++ f' ++ u8 ":")) by (unfold insertion_ending in F'; destruct F' as [<-|[<-|[]]]; cbn [app]; (apply unplaced_apart; [exact P'|now apply unplaced_check])). rewrite Et in *. cbn [app] in P2.
    assert (P3 : unplaced (t ++ f' ++ u8 ":")). { eapply Forall_impl; [|exact P2]. intros b H (q & r & E). apply H. exists (32%N :: q), r. cbn [app]. now rewrite E. }
    destruct (joint_unplaced f c F C) as (f0 & -> & F0). apply (unplaced_apart []); [now apply unplaced_check|]. cbn [app]. apply unplaced_apart; [exact P|]. rewrite app_assoc. now apply unplaced_apart. }
  destruct (joint_block_reads n z u a x y m _ _ _ Z Tw A (gap_space _) (starts_bracket _ Bt) (starts_no_more _ Bt) (starts_no_effect _ Bt) PP S1 S2 G) as (h & H & Y).
  exists a, h, g, g'. split; [exact H|]. split; [|auto]. cbn [or_start or_end]. change (32%N :: w ++ f ++ c ++ i ++ f' ++ u8 ":") with (u8 " " ++ w ++ f ++ c ++ i ++ f' ++ u8 ":") in Y. rewrite !pos_app in Y. change (size (u8 " ")) with 1 in Y.
  match type of Y with says_act _ ?p ?q _ _ => replace p with (size z + size u) in Y by lia; replace q with (size z + size u + size x) in Y by lia end. exact Y.
Qed.
