(* C74: laws from their lines to what their sentences say. *)
From Coq Require Import Lia Permutation Sorted.
From Verif Require Import PyBase PyBaseFacts NumModel NumSpec IdModel IdSpec LineModel LineSpec LineProofs DateModel RefModel RefSpec TreeModel TreeSpec SemModel GramModel GramSpec
  PegModel PegSpec PegSpec2 PegSpec3 PegSpec4 PegSpec5 SemSpec SemProofs SemProofs7 FixupModel D2oModel D2oSpec D2oHun D2oHunSpec GazModel PipeModel PipeSpec FitSpec P_Sem P_Told P_Amends P_Enforce P_Skip
  StructModel StructSpec StructProofs LayoutSpec BodySpec LayoutProofs LayoutProofs2 LayoutProofs3 BodyProofs2 BodyProofs3 LawSpec LawProofs LawProofs2 P_Layout P_Body P_Fit.
Local Open Scope Z_scope.

(** C74: what an amendment puts in is parsed as what its layout shows, whether it is points, paragraphs, articles or chapters. *)
Theorem C74_block : forall r ctx ctx' lines cs, put_in r lines cs ->
  parse_block_amendment r ctx ctx' lines = Ok (mk_sae KBlockAmendmentContainer None None ctx (Some cs) ctx' NO_META).
Proof. intros r ctx ctx' lines cs. exact (put_in_parsed r lines cs ctx ctx'). Qed.
Print Assumptions C74_block.
(* In an act, quoted blocks that are amendments are replaced by what they put in; the others are kept. *)
Theorem C74_amended : forall a b, fresh_act a -> amending_act a b -> block_parse_act grammar_analyzer a = Ok b.
Proof. exact amending_act_block. Qed.
Print Assumptions C74_amended.

(** A law that is laid out as an act, whose amendments are introduced by usual sentences and laid out as what they put in, and
    whose sentences are all usual or too dull or too long to be read, is read as the act with what its sentences say. *)
Theorem C74_read : forall e x c lines, do_all_fixups (e_fixups e) (lw_identifier x) (lw_body x) = Ok lines -> e_analyzer e = grammar_analyzer ->
  law_written c lines -> act_identifier c = lw_identifier x -> act_publication_date c = lw_date x -> act_subject c = lw_subject x ->
  reads e x Full (Ok (OAct c)).
Proof.
  intros e x c lines F A L E1 E2 E3. destruct (law_parsed _ _ _ _ _ L E1 E2 E3) as (a & b & P & B & S). rewrite <- A in B, S.
  apply (rd_full _ _ b c); [|exact S]. apply (rd_block _ _ a b); [|exact B]. exact (rd_structure _ _ lines F a P).
Qed.
Print Assumptions C74_read.
(* There is only one such act. *)
Theorem C74_unique : forall c c' lines, law_written c lines -> law_written c' lines -> act_identifier c = act_identifier c' ->
  act_publication_date c = act_publication_date c' -> act_subject c = act_subject c' -> c = c'.
Proof.
  intros c c' lines L L' E1 E2 E3. destruct (law_parsed _ _ _ _ _ L eq_refl eq_refl eq_refl) as (a & b & P & B & S).
  destruct (law_parsed _ _ _ _ _ L' eq_refl eq_refl eq_refl) as (a' & b' & P' & B' & S'). rewrite E1, E2, E3 in P. congruence.
Qed.
Print Assumptions C74_unique.
(* It can be written as JSON and read back. *)
Theorem C74_kept : forall c lines, law_written c lines -> real_date (act_publication_date c) -> Forall measured lines ->
  exists d v, to_dict hun_table (act_value c) (TClass (u8 "Act")) = Ok d /\ plain d /\
    to_object hun_table d (TClass (u8 "Act")) = Ok v /\ py_eq hun_table (act_value c) v = true.
Proof.
  intros c lines L D M. set (x := mk_law (act_identifier c) (act_publication_date c) (act_subject c) lines).
  set (e := mk_env (fun _ _ => mk_gen [] None) (fun _ => mk_gen [] None) [] grammar_analyzer).
  apply (C73_written e x c lines); [|apply C73_dates|exact D|reflexivity|exact M]. apply (C74_read e x c lines); auto.
Qed.
Print Assumptions C74_kept.

(* A law that amends another one and calls it by a short name, which its next article uses; the last one says when it
   enters into force *)
Definition c74_heading := u8 "1. § " ++ c68_amendment.
Definition c74_lines : list line :=
  [line_of 20 c74_heading; line_of 20 (u8 "„(1) A bíróság dönt.”"); line_of 20 (u8 "2. § " ++ c67_text); line_of 20 (u8 "3. § " ++ c70_next)].
Definition c74_quoted : list line := match l_slice (line_of 20 (u8 "„(1) A bíróság dönt.”")) 1 (Some (-1)) with Ok l => [l] | Err _ => [] end.
Definition c74_new : sae := mk_sae KParagraph (Some (u8 "1")) (Some (u8 "A bíróság dönt.")) None None None NO_META.
Definition c74_paragraphs (m1 m2 m3 : sae_meta) : list sae :=
  [mk_sae KParagraph None None (Some c68_amendment) (Some [ChSae (mk_sae KBlockAmendmentContainer None None None (Some [ChSae c74_new]) None NO_META)]) (Some []) m1;
   mk_sae KParagraph None (Some c67_text) None None None m2; mk_sae KParagraph None (Some c70_next) None None None m3].
Definition c74_act (ps : list sae) : act :=
  mk_act (u8 "2020. évi I. törvény") (mk_date 2020 1 1) (u8 "a példáról") []
    (map (fun '(i, p) => AArticle (mk_article i None [p])) (combine [u8 "1"; u8 "2"; u8 "3"] ps)).
Definition c74_ptk r := mk_ref (Some c68_act) (r_article r) (r_paragraph r) (r_point r) (r_subpoint r).
Definition c74_metas : list sae_meta :=
  [mk_meta (Some [mk_abbreviation (u8 "Ptk.") c68_act])
     (Some [mk_outgoing 32 52 (mk_ref (Some c68_act) RNone RNone RNone RNone); mk_outgoing 76 94 (mk_ref (Some c68_act) (RId (u8 "3")) (RId (u8 "1")) RNone RNone)])
     (Some [BlockAmendment (ARef (mk_ref (Some c68_act) (RId (u8 "3")) (RId (u8 "1")) RNone RNone)) false]);
   mk_meta (Some [mk_abbreviation (u8 "Tv.") c68_act])
     (Some (map (fun o => mk_outgoing (or_start o) (or_end o) (c74_ptk (or_reference o))) c67_refs ++
            [mk_outgoing 84 92 (mk_ref None (RId (u8 "5")) RNone RNone RNone); mk_outgoing 98 121 (mk_ref (Some c68_act) RNone RNone RNone RNone)]))
     (Some []);
   mk_meta (Some []) (Some []) (Some [EnforcementDate None (EDaysAfterPublication 8) None])].
Definition c74_law : act := c74_act (c74_paragraphs (nth 0 c74_metas NO_META) (nth 1 c74_metas NO_META) (nth 2 c74_metas NO_META)).
Definition c74_before : act :=
  c74_act (mk_sae KParagraph None None (Some c68_amendment) (Some (map ChQuoted [c74_quoted])) None NO_META :: tl (c74_paragraphs NO_META NO_META NO_META)).

Ltac no_newline_now := let H := fresh in intros H; vm_compute in H; repeat (destruct H as [H|H]; [discriminate|]); destruct H.
Lemma c74_first : layout true KParagraph (u8 "1") [line_of 20 c68_amendment; line_of 20 (u8 "„(1) A bíróság dönt.”")]
  (mk_sae KParagraph None None (Some c68_amendment) (Some (map ChQuoted [c74_quoted])) None NO_META).
Proof.
  assert (O : ordinary c68_amendment) by (apply looks_ordinary_ok; vm_compute; reflexivity).
  apply (layout_quoted true (u8 "1") None _ (line_of 20 c68_amendment) [] (line_of 20 (u8 "„(1) A bíróság dönt.”")) [] _ 8222%N).
  - exact (ordinary_header _ _ _ _ None 20 20 _ class_paragraph O eq_refl).
  - constructor; [apply line_typed|constructor].
  - apply one_text. discriminate.
  - repeat (constructor; [vm_compute; discriminate|]). vm_compute. constructor.
  - constructor; [intros _; exact (ordinary_starts _ _ _ _ None 20 _ class_paragraph eq_refl O)|constructor].
  - now left.
  - exists (u8 "(1) A bíróság dönt.”"). vm_compute. reflexivity.
  - repeat (constructor; [vm_compute; discriminate|]). vm_compute. constructor.
  - destruct (l_slice (line_of 20 (u8 "„(1) A bíróság dönt.”")) 1 (Some (-1))) as [q|] eqn:E; [|vm_compute in E; discriminate].
    replace c74_quoted with [q] by (unfold c74_quoted; now rewrite E).
    apply (quotes_line [] _ q 8222%N (u8 "(1) A bíróság dönt.") [] [] None); [constructor|now left|vm_compute; reflexivity|vm_compute; reflexivity|exact E|now apply quotes_end].
  - discriminate.
Qed.
Lemma c74_layout : act_layout c74_before c74_lines.
Proof.
  assert (D : forall c, (48 <= c <= 57)%N -> ascii_digits [c]) by (intros c H; constructor; [exact H|constructor]).
  assert (A1 : article_number (u8 "1")) by (constructor; [now apply D|discriminate]).
  apply (layout_act _ [] EMPTY_LINE c74_lines); [apply preamble_end|exists []; split; constructor| |discriminate].
  change (act_children c74_before) with (AArticle (mk_article (u8 "1") None [mk_sae KParagraph None None (Some c68_amendment) (Some (map ChQuoted [c74_quoted])) None NO_META])
    :: map (fun '(i, p) => AArticle (mk_article i None [p])) (combine [u8 "2"; u8 "3"] (tl (c74_paragraphs NO_META NO_META NO_META)))).
  change c74_lines with ((line_of 20 c74_heading :: [line_of 20 (u8 "„(1) A bíróság dönt.”")]) ++ skipn 2 c74_lines).
  eapply layout_with_article.
  - destruct (l_slice (line_of 20 c74_heading) (Z.of_nat (length (u8 "1" ++ u8 "." ++ [32%N] ++ u8 "§ "))) None) as [l1|] eqn:E; [|vm_compute in E; discriminate].
    assert (C1 : l_content l1 = c68_amendment /\ forallb (fun p => Nat.eqb (length (p_content p)) 1) (l_parts l1) = true) by (vm_compute in E; injection E as <-; split; vm_compute; reflexivity).
    destruct C1 as [C1 T1].
    apply (layout_article true (u8 "1") [32%N] _ l1 c68_amendment [line_of 20 (u8 "„(1) A bíróság dönt.”")] None (l1 :: [line_of 20 (u8 "„(1) A bíróság dönt.”")]) [] (l1 :: [line_of 20 (u8 "„(1) A bíróság dönt.”")])).
    + exact A1.
    + right. reflexivity.
    + rewrite line_content; reflexivity.
    + no_newline_now.
    + exact E.
    + eapply untitled; [rewrite C1; reflexivity|discriminate].
    + reflexivity.
    + constructor.
    + cbn [length]. apply Nat.le_0_l.
    + apply layout_one; [intros B; apply blank_content in B; rewrite C1 in B; discriminate| |discriminate].
      eapply layout_same; [|rewrite C1; symmetry; apply line_content|exact c74_first].
      unfold typed. apply Forall_forall. rewrite forallb_forall in T1. intros p Hp. apply Nat.eqb_eq. auto.
  - exact Logic.I.
  - repeat (constructor; [vm_compute; discriminate|]). vm_compute. constructor.
  - repeat constructor; unfold one_line; rewrite line_content; no_newline_now.
  - apply calm_line; [vm_compute; reflexivity| |apply calm_end]. split; [|intros B; rewrite line_not_bold in B; discriminate].
    split; [|]; rewrite line_content.
    + intros _ i H. apply (proj2 (proj2 (looks_plain_ok (u8 "„(1) A bíróság dönt.”") eq_refl)) i H).
    + intros k i K H. exfalso. exact (proj1 (proj2 (looks_plain_ok (u8 "„(1) A bíróság dönt.”") eq_refl)) k i K H).
  - apply printed_layout; [|right; unfold c74_heading; apply f_equal, line_indent].
    cbn [skipn c74_lines tl c74_paragraphs combine map].
    apply (printed_untitled _ (u8 "2") _ c67_text []);
      [constructor; [now apply D|discriminate]| |reflexivity|apply element_plain_ok; vm_compute; reflexivity|vm_compute; reflexivity|discriminate|].
    { apply clean_text; [apply looks_ordinary_ok; vm_compute; reflexivity|reflexivity]. }
    apply (printed_untitled _ (u8 "3") _ c70_next []);
      [constructor; [now apply D|discriminate]| |reflexivity|apply element_plain_ok; vm_compute; reflexivity|vm_compute; reflexivity|discriminate|constructor].
    apply clean_text; [apply looks_ordinary_ok; vm_compute; reflexivity|reflexivity].
Qed.
Lemma c74_put : put_in (ARef (mk_ref (Some c68_act) (RId (u8 "3")) (RId (u8 "1")) RNone RNone)) c74_quoted [ChSae c74_new].
Proof.
  assert (I : item_id KParagraph (u8 "1") (u8 "1")) by an_id.
  assert (O : ordinary (u8 "A bíróság dönt.")) by (apply looks_ordinary_ok; vm_compute; reflexivity).
  apply (puts_items _ KParagraph (u8 "1") (u8 "1") c74_quoted [c74_new]); [apply at_paragraph; [now left|exact I]|].
  assert (C : exists q, c74_quoted = [q] /\ l_content q = u8 "(1) A bíróság dönt." /\ forallb (fun p => Nat.eqb (length (p_content p)) 1) (l_parts q) = true).
  { eexists. split; [vm_compute; reflexivity|split; vm_compute; reflexivity]. }
  destruct C as (q & -> & C & T). apply items_last; [exact I| |reflexivity|constructor].
  eapply layout_same; [|rewrite C; symmetry; apply (line_content 20)|].
  - unfold typed. apply Forall_forall. rewrite forallb_forall in T. intros p Hp. apply Nat.eqb_eq. auto.
  - apply (layout_text false KParagraph (u8 "1") (Some (u8 "1")) _ (line_of 20 (u8 "A bíróság dönt."))).
    + exact (ordinary_header _ _ _ _ (Some (u8 "1")) 20 20 _ class_paragraph O I).
    + constructor.
    + apply one_text. discriminate.
    + repeat (constructor; [vm_compute; discriminate|]). vm_compute. constructor.
    + constructor; [intros _; exact (ordinary_starts _ _ _ _ (Some (u8 "1")) 20 _ class_paragraph I O)|constructor].
Qed.
Lemma c74_amending : amending_act c74_before (c74_act (c74_paragraphs NO_META NO_META NO_META)).
Proof.
  split; [reflexivity|]. split; [reflexivity|]. split; [reflexivity|]. split; [reflexivity|]. unfold c74_before, c74_act. cbn [act_children combine map c74_paragraphs tl].
  constructor; [|constructor; [|constructor; [|constructor]]]; (split; [reflexivity|split; [reflexivity|]]); (constructor; [|constructor]).
  - eapply (amends_block None c68_amendment c68_amendment c74_quoted None None None); [apply intro_alone|vm_compute; discriminate|exact (proj1 C68_found_ex)|exact c74_put].
    apply split_intro_none. vm_compute. reflexivity.
  - apply amends_nothing. intros cs E. discriminate.
  - apply amends_nothing. intros cs E. discriminate.
Qed.
Lemma kept_all f n refs : Forall (ends_inside 0 n) refs -> kept_references f 0 n refs (map (shift_reference f 0) refs).
Proof. induction 1; constructor; auto. Qed.
Ltac in_order := repeat (constructor; [|]); try constructor; unfold position_le; cbn; lia.
Lemma c74_says : says_all [] (readings_of (c74_act (c74_paragraphs NO_META NO_META NO_META))) (map s_meta (carriers_of c74_law)).
Proof.
  change (map s_meta (carriers_of c74_law)) with c74_metas.
  change (readings_of (c74_act (c74_paragraphs NO_META NO_META NO_META))) with [mk_reading (Some c68_amendment) [] []; mk_reading (Some c67_text) [] []; mk_reading (Some c70_next) [] []].
  assert (G : forall known t refs semantics abbrs sorted sems, item_text t [] t -> worth_reading t -> sentence_written t refs semantics abbrs ->
    Forall (ends_inside 0 (length t)) refs -> map (shift_reference (abbreviations_map (known ++ abbrs)) 0) refs = sorted -> StronglySorted position_le sorted ->
    map (fun s => sem_resolve s (abbreviations_map (known ++ abbrs))) semantics = sems ->
    says known (mk_reading (Some t) [] []) (mk_meta (Some abbrs) (Some sorted) (Some sems))).
  { intros known t refs semantics abbrs sorted sems I W S F <- So <-. eapply (says_sentence known t [] [] t refs semantics abbrs (abbreviations_map (known ++ abbrs)));
      [exact I|cbn [app]; now rewrite app_nil_r|cbn [app]; now rewrite app_nil_r|apply map_meaning|apply kept_all; exact F|apply Permutation_refl|exact So]. }
  eapply says_next; [|reflexivity|eapply says_next; [|reflexivity|eapply says_next; [|reflexivity|constructor]]].
  - eapply G; [apply fix_end_spec; vm_compute; reflexivity|apply worth_spec; split; vm_compute; reflexivity|apply sen_block; exact (proj1 C68_found_ex)| |vm_compute; reflexivity|in_order|vm_compute; reflexivity].
    repeat constructor; vm_compute; discriminate.
  - eapply G; [apply fix_end_spec; vm_compute; reflexivity|apply worth_spec; split; vm_compute; reflexivity|apply sen_told; [apply CiteProofs4.told_cited|..]; apply C67_found_ex| |vm_compute; reflexivity|in_order|vm_compute; reflexivity].
    repeat constructor; vm_compute; discriminate.
  - eapply G; [apply fix_end_spec; vm_compute; reflexivity|apply worth_spec; split; vm_compute; reflexivity|apply sen_enforcement; [exact (proj2 (proj2 (proj2 (proj2 C70_found_ex))))|constructor; [split; exact Logic.I|constructor]]| |vm_compute; reflexivity|in_order|vm_compute; reflexivity].
    constructor.
Qed.
Example C74_ex : law_written c74_law c74_lines /\ Forall measured c74_lines /\ real_date (act_publication_date c74_law) /\
  reads c73_env (mk_law (u8 "2020. évi I. törvény") (mk_date 2020 1 1) (u8 "a példáról") c74_lines) Full (Ok (OAct c74_law)).
Proof.
  assert (L : law_written c74_law c74_lines).
  { exists c74_before, (c74_act (c74_paragraphs NO_META NO_META NO_META)). split; [exact c74_layout|]. split; [exact c74_amending|]. split; [reflexivity|exact c74_says]. }
  split; [exact L|]. split; [|split; [vm_compute; repeat split; discriminate|eapply C74_read; [reflexivity|reflexivity|exact L|reflexivity|reflexivity|reflexivity]]].
  repeat (constructor; [apply char_measured; vm_compute; discriminate|]). constructor.
Qed.
