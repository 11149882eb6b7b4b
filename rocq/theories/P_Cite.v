(* Property C84: lists of identifiers in references. *)
From Coq Require Import Lia Permutation Sorted.
From Verif Require Import PyBase PyBaseFacts NumModel IdModel DateModel RefModel RefSpec TreeModel SemModel GramModel GramSpec PegModel PegSpec PegSpec2 PegProofs2 PegProofs22 PegProofs30 PegProofs31 CiteSpec CiteProofs4 CiteProofs5 P_Told.
Local Open Scope Z_scope.

(** C84 *)
Theorem C84_found : forall text refs abbrs, cited Nothing 0 text refs abbrs -> ordinary text -> visible text ->
  grammar_analyzer text = Some (mk_analysis refs [] abbrs).
Proof. exact cited_found. Qed.
Print Assumptions C84_found.
(* A sentence can be read in one way only. *)
Theorem C84_unique : forall text refs abbrs refs' abbrs', cited Nothing 0 text refs abbrs -> cited Nothing 0 text refs' abbrs' -> ordinary text -> visible text ->
  refs = refs' /\ abbrs = abbrs'.
Proof. intros text l m l' m' T T' O V. pose proof (cited_found _ _ _ T O V) as H. rewrite (cited_found _ _ _ T' O V) in H. injection H as -> ->. auto. Qed.
Print Assumptions C84_unique.
(* The sentences of C67 are among these. *)
Theorem C84_covers : forall b k text refs abbrs, told b k text refs abbrs -> cited b k text refs abbrs.
Proof. exact told_cited. Qed.
Print Assumptions C84_covers.
(* A list says one thing. *)
Theorem C84_joined : forall t k x items, items_written t k x items -> exists! out, joined items out.
Proof. intros t k x items W. destruct (joined_total _ _ _ _ W) as (out & J). exists out. split; [exact J|]. intros out'. now apply joined_unique. Qed.
Print Assumptions C84_joined.
(* There is a reference for every element of every list, but for the last of those which are followed by another. *)
Theorem C84_count : forall n levels r s e, exists out, cites n levels r s e out /\ (forall out', cites n levels r s e out' -> out' = out) /\
  length out = S (list_sum (map (fun l => pred (length l)) levels)).
Proof. intros n ls r s e. destruct (cites_total n ls r s e) as (out & C & L). exists out. split; [exact C|]. split; [|exact L]. intros out' C'. exact (cites_unique _ _ _ _ _ _ C' _ C). Qed.
Print Assumptions C84_count.

Definition c84_text : pystr := u8 "Az 1., 3. és 8. § alapján a Ptk. 6. § (1), (2) és (4) bekezdése, valamint 9. § a)–c) és e) pontja alkalmazandó.".
Definition c84_own : list outgoing_reference :=
  [mk_outgoing 3 5 (mk_ref None (RId (u8 "1")) RNone RNone RNone); mk_outgoing 7 9 (mk_ref None (RId (u8 "3")) RNone RNone RNone); mk_outgoing 13 17 (mk_ref None (RId (u8 "8")) RNone RNone RNone)].
Definition c84_act : list outgoing_reference :=
  [mk_outgoing 33 46 (mk_ref (Some (u8 "Ptk.")) (RId (u8 "6")) (RRange (u8 "1") (u8 "2")) RNone RNone);
   mk_outgoing 50 63 (mk_ref (Some (u8 "Ptk.")) (RId (u8 "6")) (RId (u8 "4")) RNone RNone);
   mk_outgoing 74 84 (mk_ref (Some (u8 "Ptk.")) (RId (u8 "9")) RNone (RRange (u8 "a") (u8 "c")) RNone);
   mk_outgoing 88 97 (mk_ref (Some (u8 "Ptk.")) (RId (u8 "9")) RNone (RId (u8 "e")) RNone)].
Lemma c84_none n k : level_listed n k [] []. Proof. now left. Qed.
Lemma c84_alone items : grouped items items -> in_text_order items -> forallb is_one items = true -> joined items items.
Proof.
  intros G O A. exists items. split; [|auto]. rewrite forallb_forall in A. replace (filter is_one items ++ filter (fun x => negb (is_one x)) items) with items; [exact G|].
  clear G O. induction items as [|x l IH]; [reflexivity|]. cbn [filter]. rewrite (A x) by now left. cbn [negb app]. f_equal. apply IH. intros y Y. apply A. now right.
Qed.
Ltac apart := let y := fresh in let t := fresh in let F := fresh in
  intros y t F; injection F as <- <-; let f := fresh in let a := fresh in let b := fresh in let H1 := fresh in let H2 := fresh in let H3 := fresh in let H4 := fresh in
  intros (_ & f & a & b & H1 & H2 & H3 & H4); cbn in H1, H2, H3; injection H1 as <-; injection H2 as <-; injection H3 as <-; vm_compute in H4; discriminate H4.
Ltac ordered := repeat (apply SSorted_cons; [|repeat (apply Forall_cons; [cbn; lia|]); apply Forall_nil]); apply SSorted_nil.
Lemma c84_article k i : article_shape i -> level_listed 1 k (u8 " " ++ (i ++ u8 ".") ++ u8 " §") [mk_add PArticle (RId i) (k + 1) (k + 1 + size (i ++ u8 "."))].
Proof.
  intros I. right. exists PArticle, (i ++ u8 "."), [], [mk_add PArticle (RId i) (k + 1) (k + 1 + size (i ++ u8 "."))]. split; [reflexivity|]. split; [apply it_last; exact (iw_one PArticle i I)|]. split; [now left|]. split; [reflexivity|]. split; [|reflexivity].
  apply c84_alone; [apply grouped_single|ordered|reflexivity].
Qed.
Lemma c84_numbers c : (48 <= c <= 57)%N -> article_shape [c]. Proof. intros C. constructor. split; [discriminate|]. now apply Forall_cons. Qed.
Lemma c84_paragraph c : (48 <= c <= 57)%N -> part_id PParagraph [c]. Proof. intros C. exists [c], []. split; [reflexivity|]. split; [|constructor]. split; [discriminate|]. now apply Forall_cons. Qed.
Lemma c84_separator x a : In x [u8 ","; u8 " és"; u8 ", valamint"] -> In a [[]; u8 "a "] -> separator (x ++ u8 " " ++ a).
Proof. intros X A. exists x, a. split; [cbn in *; intuition|]. split; [cbn in *; intuition|reflexivity]. Qed.
Example C84_found_ex : cited Nothing 0 c84_text (c84_own ++ mk_outgoing 28 32 (mk_ref (Some (u8 "Ptk.")) RNone RNone RNone RNone) :: c84_act) [] /\ ordinary c84_text /\ visible c84_text.
Proof.
  split.
  - refine (cited_reference Nothing 0 (u8 "Az ") (u8 "1., 3. és 8. §") c84_own _ _ _ _ _ _ _ _); [checks|checks|exact I| |].
    { exists (u8 " 1., 3. és 8. §"), [], [], []. set (items := [mk_add PArticle (RId (u8 "1")) 3 5; mk_add PArticle (RId (u8 "3")) 7 9; mk_add PArticle (RId (u8 "8")) 13 15]).
      exists items, [], [], []. split; [|repeat (split; [apply c84_none|]); split; [reflexivity|]; split; [now left|]].
      - right. exists PArticle, (u8 "1., 3. és 8."), [], items. split; [reflexivity|]. split; [|split; [now left|split; [discriminate|split; [|reflexivity]]]].
        + apply (it_more PArticle 3 (RId (u8 "1")) (u8 "1.") (u8 ", ") (u8 "3. és 8.")); [apply (iw_one PArticle (u8 "1")); apply c84_numbers; lia|apply (c84_separator (u8 ",") []); cbn; tauto|].
          apply (it_more PArticle 7 (RId (u8 "3")) (u8 "3.") (u8 " és ") (u8 "8.")); [apply (iw_one PArticle (u8 "3")); apply c84_numbers; lia|apply (c84_separator (u8 " és") []); cbn; tauto|].
          apply (it_last PArticle 13 (RId (u8 "8")) (u8 "8.")). apply (iw_one PArticle (u8 "8")); apply c84_numbers; lia.
        + apply c84_alone; [|ordered|reflexivity]. apply gr_one; [apart|]. apply gr_one; [apart|]. apply grouped_single.
      - apply ci_more, ci_more, ci_last, ci_none, ci_none, ci_none, ci_end. }
    refine (cited_act Reference 17 (u8 " alapján a ") (u8 "Ptk. 6. § (1), (2) és (4) bekezdése, valamint 9. § a)–c) és e) pontja") (u8 " alkalmazandó.") (_ :: c84_act) [] [] [] _ _ _ _ _); [checks|checks|split; checks| |apply cited_words; [checks|split; checks]].
    refine (al_listed 28 (u8 "Ptk.") (u8 "Ptk.") [] [] (u8 "6. § (1), (2) és (4) bekezdése, valamint 9. § a)–c) és e) pontja") c84_act _ _).
    { constructor. exists 80%N, (u8 "tk"). split; [reflexivity|]. split; [left; unfold is_capital; lia|]. split; [discriminate|]. small. }
    refine (al_more (u8 "Ptk.") 33 (u8 "6. § (1), (2) és (4) bekezdése") (firstn 2 c84_act) (u8 ", valamint ") (u8 "9. § a)–c) és e) pontja") (skipn 2 c84_act) _ _ _); [|apply (c84_separator (u8 ", valamint") []); cbn; tauto|apply al_last].
    + exists (u8 " 6. §"), (u8 " (1), (2) és (4) bekezdése"), [], []. set (out := [mk_add PParagraph (RRange (u8 "1") (u8 "2")) 38 46; mk_add PParagraph (RId (u8 "4")) 50 53]).
      exists [mk_add PArticle (RId (u8 "6")) 33 35], out, [], []. split; [apply (c84_article 32 (u8 "6")); apply c84_numbers; lia|]. split; [|repeat (split; [apply c84_none|]); split; [reflexivity|]; split; [now left|]].
      * right. exists PParagraph, (u8 "(1), (2) és (4)"), (u8 "e"), [mk_add PParagraph (RId (u8 "1")) 38 41; mk_add PParagraph (RId (u8 "2")) 43 46; mk_add PParagraph (RId (u8 "4")) 50 53].
        split; [reflexivity|]. split; [|split; [small|split; [discriminate|split; [|reflexivity]]]].
        -- apply (it_more PParagraph 38 (RId (u8 "1")) (u8 "(1)") (u8 ", ") (u8 "(2) és (4)")); [apply (iw_one PParagraph (u8 "1")); apply c84_paragraph; lia|apply (c84_separator (u8 ",") []); cbn; tauto|].
           apply (it_more PParagraph 43 (RId (u8 "2")) (u8 "(2)") (u8 " és ") (u8 "(4)")); [apply (iw_one PParagraph (u8 "2")); apply c84_paragraph; lia|apply (c84_separator (u8 " és") []); cbn; tauto|].
           apply (it_last PParagraph 50 (RId (u8 "4")) (u8 "(4)")). apply (iw_one PParagraph (u8 "4")); apply c84_paragraph; lia.
        -- exists out. split; [|split; [reflexivity|ordered]]. refine (gr_two (mk_add PParagraph (RId (u8 "1")) 38 41) (mk_add PParagraph (RId (u8 "2")) 43 46) (u8 "1") (u8 "2") _ _ _ eq_refl eq_refl (grouped_single _)). split; [reflexivity|]. eexists _, (u8 "1"), (u8 "2"). repeat split.
      * apply ci_last, ci_more, ci_last, ci_none, ci_none, ci_end.
    + exists (u8 " 9. §"), [], (u8 " a)–c) és e) pontja"), []. set (out := [mk_add PAlphabeticPoint (RRange (u8 "a") (u8 "c")) 79 84; mk_add PAlphabeticPoint (RId (u8 "e")) 88 90]).
      exists [mk_add PArticle (RId (u8 "9")) 74 76], [], out, []. split; [apply (c84_article 73 (u8 "9")); apply c84_numbers; lia|]. split; [apply c84_none|]. split; [|split; [apply c84_none|]; split; [reflexivity|]; split; [now left|]].
      * right. exists PAlphabeticPoint, (u8 "a)–c) és e)"), (u8 "ja"), out.
        split; [reflexivity|]. split; [|split; [small|split; [discriminate|split; [|reflexivity]]]].
        -- apply (it_more PAlphabeticPoint 79 (RRange (u8 "a") (u8 "c")) (u8 "a)–c)") (u8 " és ") (u8 "e)")); [|apply (c84_separator (u8 " és") []); cbn; tauto|].
           ++ apply (iw_range PAlphabeticPoint (u8 "a") 8211%N (u8 "c")); [left; eexists; split; [reflexivity|unfold is_small; lia]|left; eexists; split; [reflexivity|unfold is_small; lia]|cbn; tauto].
           ++ apply (it_last PAlphabeticPoint 88 (RId (u8 "e")) (u8 "e)")). apply (iw_one PAlphabeticPoint (u8 "e")). left; eexists; split; [reflexivity|unfold is_small; lia].
        -- exists (rev out). split; [|split; [apply perm_swap|ordered]]. apply gr_one; [|apply grouped_single]. intros y t [= <- <-] (_ & f & a & b & _ & _ & H & _). discriminate H.
      * apply ci_last, ci_none, ci_more, ci_last, ci_none, ci_end.
  - split; [|eexists; split; [left; reflexivity|reflexivity]].
    split; [|split; [|split; not_there]].
    + intros (u & v & E & _). assert (K : forallb (fun c => negb (c =? 58)%N) c84_text = true) by reflexivity. rewrite forallb_forall in K. assert (J : In 58%N c84_text) by (rewrite E; apply in_or_app; right; now left). apply K in J. discriminate J.
    + intros J. assert (K : forallb (fun c => negb (c =? 8222)%N) c84_text = true) by reflexivity. rewrite forallb_forall in K. apply K in J. discriminate J.
Qed.
Example C84_unique_ex : forall refs abbrs, cited Nothing 0 c84_text refs abbrs -> length refs = 8%nat /\ abbrs = [].
Proof. intros l m T. destruct C84_found_ex as (T' & O & V). destruct (C84_unique _ _ _ _ _ T T' O V) as [-> ->]. split; reflexivity. Qed.
Example C84_covers_ex : cited Nothing 0 c67_text
  (c67_refs ++ [mk_outgoing 84 92 (mk_ref None (RId (u8 "5")) RNone RNone RNone); mk_outgoing 98 121 (mk_ref (Some (u8 "2013. évi V. törvény")) RNone RNone RNone RNone)])
  [mk_abbreviation (u8 "Tv.") (u8 "2013. évi V. törvény")].
Proof. apply C84_covers. exact (proj1 C67_found_ex). Qed.
(* Only pairs of identifiers become ranges, and a range that is written stays where it is: here (1) and (2) are around (5)–(6), and (3) is alone. *)
Definition c84_items : list addition :=
  [mk_add PParagraph (RId (u8 "1")) 0 3; mk_add PParagraph (RRange (u8 "5") (u8 "6")) 5 12; mk_add PParagraph (RId (u8 "2")) 14 17; mk_add PParagraph (RId (u8 "3")) 21 24].
Example C84_joined_ex : items_written PParagraph 0 (u8 "(1), (5)–(6), (2) és (3)") c84_items /\
  joined c84_items [mk_add PParagraph (RRange (u8 "1") (u8 "2")) 0 17; mk_add PParagraph (RRange (u8 "5") (u8 "6")) 5 12; mk_add PParagraph (RId (u8 "3")) 21 24].
Proof.
  split.
  - apply (it_more PParagraph 0 (RId (u8 "1")) (u8 "(1)") (u8 ", ") (u8 "(5)–(6), (2) és (3)")); [apply (iw_one PParagraph (u8 "1")); apply c84_paragraph; lia|apply (c84_separator (u8 ",") []); cbn; tauto|].
    apply (it_more PParagraph 5 (RRange (u8 "5") (u8 "6")) (u8 "(5)–(6)") (u8 ", ") (u8 "(2) és (3)")); [apply (iw_range PParagraph (u8 "5") 8211%N (u8 "6")); [apply c84_paragraph; lia|apply c84_paragraph; lia|cbn; tauto]|apply (c84_separator (u8 ",") []); cbn; tauto|].
    apply (it_more PParagraph 14 (RId (u8 "2")) (u8 "(2)") (u8 " és ") (u8 "(3)")); [apply (iw_one PParagraph (u8 "2")); apply c84_paragraph; lia|apply (c84_separator (u8 " és") []); cbn; tauto|].
    apply (it_last PParagraph 21 (RId (u8 "3")) (u8 "(3)")). apply (iw_one PParagraph (u8 "3")); apply c84_paragraph; lia.
  - exists [mk_add PParagraph (RRange (u8 "1") (u8 "2")) 0 17; mk_add PParagraph (RId (u8 "3")) 21 24; mk_add PParagraph (RRange (u8 "5") (u8 "6")) 5 12]. split; [|split; [|ordered]].
    + refine (gr_two (mk_add PParagraph (RId (u8 "1")) 0 3) (mk_add PParagraph (RId (u8 "2")) 14 17) (u8 "1") (u8 "2") _ _ _ eq_refl eq_refl _); [split; [reflexivity|]; eexists _, (u8 "1"), (u8 "2"); repeat split|]. apply gr_one; [|apply grouped_single]. intros y t [= <- <-] (_ & f & a & b & _ & _ & H & _). discriminate H.
    + constructor. apply perm_swap.
Qed.
Example C84_count_ex : forall out, cites 1 [[mk_add PArticle (RId (u8 "1")) 0 2]; c84_items; []; []] (no_parts None) 0 30 out -> length out = 4%nat.
Proof. intros out C. destruct (C84_count 1 [[mk_add PArticle (RId (u8 "1")) 0 2]; c84_items; []; []] (no_parts None) 0 30) as (o & _ & Q & L). rewrite (Q _ C), L. reflexivity. Qed.
