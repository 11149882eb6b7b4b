(* C28-C32, C34, C35, C53: structure parsing. *)
From Verif Require Import PyBase PyBaseFacts NumModel NumSpec IdModel IdSpec LineModel LineSpec LineProofs DateModel RefModel RefSpec
  TreeModel TreeSpec StructModel StructSpec StructProofs StructProofs2 StructProofs3 StructProofs4 StructProofs5.
Local Open Scope Z_scope.

(* a line of one-character parts that starts at a given distance from the margin *)
Definition text_line (indent : Z) (s : pystr) : line :=
  mk_line (match s with
           | [] => []
           | c :: t => mk_part (f_of_Z indent) [c] false :: map (fun c => mk_part (f_of_Z 5) [c] false) t
           end) (f_of_Z 5).
Definition bold_line (s : pystr) : line := mk_line (map (fun c => mk_part (f_of_Z 5) [c] true) s) (f_of_Z 5).
Ltac fine_lines := repeat (apply Forall_cons; [split; [reflexivity|vm_compute; intuition discriminate]|]); apply Forall_nil.
Ltac single_ends := repeat (apply Forall_cons; [reflexivity|]); apply Forall_nil.

(** C28: a line is the heading of a structural element exactly if it has the form that the type of the
    element asks for; and printed headings, with the title after them, are read back as the same element. *)
Theorem C28_headings : forall k l, ~ In 10%N (l_content l) ->
  (forall i, struct_extract k l = Ok (Some i) <-> heading k (l_content l) i) /\
  (struct_extract k l = Ok None <-> forall i, ~ heading k (l_content l) i).
Proof. exact (fun k l H => conj (fun i => struct_extract_heading k l i H) (struct_extract_no_heading k l H)). Qed.
Print Assumptions C28_headings.
Example C28_headings_ex :
  struct_extract KChapter (text_line 40 (u8 "XII/A. Fejezet")) = Ok (Some (u8 "12/A")) /\
  struct_extract KPart (text_line 40 (u8 "KÜLÖNÖS RÉSZ")) = Ok (Some (u8 "2")) /\
  struct_extract KBook (text_line 40 (u8 "SZÁZADIK KÖNYV")) = Ok (Some (u8 "100")) /\
  struct_extract KBook (text_line 40 (u8 "SZÁZEGYEDIK KÖNYV")) = Ok None.
Proof. vm_compute. auto. Qed.

Theorem C28_roundtrip : forall e, in_range e -> exists s, formatted_identifier e = Ok s /\
  forall l ls, ~ In 10%N (l_content l) -> heading_lines e s (l :: ls) ->
    struct_parse (se_kind e) (l :: ls) = Ok e /\
    (se_identifier e <> [] -> struct_extract (se_kind e) l = Ok (Some (se_identifier e))).
Proof. exact heading_roundtrip. Qed.
Print Assumptions C28_roundtrip.
Definition c28_title := mk_struct KTitle (u8 "14/B") (u8 "A SZERZŐ-DÉSEK") false.
Definition c28_lines := [text_line 40 (u8 "XIV/B. CÍM"); text_line 40 (u8 "A SZERZŐ-"); text_line 40 (u8 "DÉSEK")].
Example C28_roundtrip_ex :
  heading_lines c28_title (u8 "XIV/B. CÍM") c28_lines /\ struct_parse KTitle c28_lines = Ok c28_title.
Proof.
  split; [|vm_compute; reflexivity]. apply lines_titled; [discriminate|reflexivity|vm_compute; reflexivity|].
  change (se_title _) with (u8 "A SZERZŐ-DÉSEK").
  replace (u8 "A SZERZŐ-DÉSEK") with (joined_lines (tl c28_lines)) by (vm_compute; reflexivity). apply joined_lines_text.
Qed.
Example C28_range_ex : in_range c28_title /\ in_range (mk_struct KSubtitle (u8 "7/C") (u8 "Vegyes") false) /\
  in_range (mk_struct KPart (u8 "3") [] true).
Proof.
  split; [|split].
  - apply (range_title 14 (u8 "/B")); [lia|]. split; [|split; [vm_compute; intuition discriminate|reflexivity]].
    intros c t [= <- _]. vm_compute. split; intuition discriminate.
  - apply range_subtitle. apply (subtitle_inserted (u8 "7") 67%N); [repeat constructor; discriminate|discriminate|split; discriminate].
  - apply (range_special 3). lia.
Qed.

(* [parses k ls s]: the parser of k makes s of the lines.  For points and subpoints the parser must have found
   an identifier: this is the case whenever they are parsed as parts of something. *)
Inductive parses : sae_kind -> list line -> sae -> Prop :=
| parses_paragraph ls pi s : parse_paragraph ls pi = Ok s -> parses KParagraph ls s
| parses_point ls pi s : parse_alphabetic_point ls pi = Ok s -> s_identifier s <> None -> parses KAlphabeticPoint ls s
| parses_numeric_point ls pi s : parse_numeric_point ls pi = Ok s -> s_identifier s <> None -> parses KNumericPoint ls s
| parses_subpoint prefix ls pi s : Forall small_letter prefix ->
    parse_alphabetic_subpoint prefix ls pi = Ok s -> s_identifier s <> None -> parses KAlphabeticSubpoint ls s
| parses_numeric_subpoint ls pi s :
    parse_numeric_subpoint ls pi = Ok s -> s_identifier s <> None -> parses KNumericSubpoint ls s.
Lemma parses_element k ls s : parses k ls s -> Forall single_end ls ->
  element k ls s /\ forall j, s_identifier s = Some j -> plain j.
Proof.
  assert (X : forall p subs_of ls pi s, known_conf p -> (forall q, p = alphabetic_subpoint_conf q -> plain q) ->
    subs_sound (pc_kind p) subs_of -> Forall single_end ls ->
    (p = paragraph_conf \/ s_identifier s <> None) -> sae_parse p subs_of ls pi = Ok s ->
    element (pc_kind p) ls s /\ forall j, s_identifier s = Some j -> plain j).
  { clear. intros p subs_of ls pi s K Q SS SE ID H. destruct ls as [|l0 ls]; [discriminate|].
    assert (I : s_identifier s = extract_identifier p l0) by (eapply sae_parse_identifier, H). rewrite I in ID |- *.
    destruct (sae_parse_sound _ _ _ _ _ _ K SS SE ID H) as [E _]. split; [exact E|]. intros j J. eapply extract_plain; eauto. }
  intros H SE. destruct H as [ls pi s H|ls pi s H I|ls pi s H I|prefix ls pi s P H I|ls pi s H I].
  - apply (X paragraph_conf paragraph_subs ls pi); auto using known_paragraph, paragraph_subs_sound. discriminate.
  - apply (X alphabetic_point_conf alphabetic_point_subs ls pi); auto using known_point, alphabetic_point_subs_sound.
    intros q E. injection E as E. discriminate.
  - apply (X numeric_point_conf numeric_point_subs ls pi); auto using known_numeric_point, numeric_point_subs_sound. discriminate.
  - apply (X (alphabetic_subpoint_conf prefix) no_subs ls pi); auto using known_subpoint, no_subs_sound.
    intros q E. injection E as _ E. apply app_inv_tail in E as <-. eapply Forall_impl; [|exact P]. unfold small_letter. cbv beta. intros. lia.
  - apply (X numeric_subpoint_conf no_subs ls pi); auto using known_numeric_subpoint, no_subs_sound. discriminate.
Qed.

(** C29: what the parsers make is what the lines write.  The children of an element are quoted blocks, or
    elements that are numbered from the first number on without gaps and repetitions. *)
Theorem C29_written : forall k ls s, parses k ls s -> Forall single_end ls -> element k ls s.
Proof. exact (fun k ls s H S => proj1 (parses_element k ls s H S)). Qed.
Print Assumptions C29_written.
Theorem C29_children_numbered : forall k ls s, parses k ls s -> Forall single_end ls ->
  s_kind s = k /\ well_numbered s /\ (forall x, inside_sae (ChSae x) s -> well_numbered x).
Proof. exact (fun k ls s H S => proj1 elements_numbering k ls s (proj1 (parses_element k ls s H S))). Qed.
Print Assumptions C29_children_numbered.
Definition c29_lines := map (fun '(n, s) => text_line n s)
  [(30, u8 "(2) Kell, ha"); (40, u8 "a) az első"); (45, u8 "sor,"); (40, u8 "b) vagy"); (50, u8 "ba) ez,"); (50, u8 "bb) az,");
   (40, u8 "nem fordul elő.")].
Definition c29_point (i t : pystr) := mk_sae KAlphabeticPoint (Some i) (Some t) None None None NO_META.
Definition c29_tree := mk_sae KParagraph (Some (u8 "2")) None (Some (u8 "Kell, ha"))
  (Some [ChSae (c29_point (u8 "a") (u8 "az első sor,"));
         ChSae (mk_sae KAlphabeticPoint (Some (u8 "b")) None (Some (u8 "vagy"))
           (Some [ChSae (mk_sae KAlphabeticSubpoint (Some (u8 "ba")) (Some (u8 "ez,")) None None None NO_META);
                  ChSae (mk_sae KAlphabeticSubpoint (Some (u8 "bb")) (Some (u8 "az,")) None None None NO_META)]) None NO_META)])
  (Some (u8 "nem fordul elő.")) NO_META.
Example C29_children_numbered_ex : parses KParagraph c29_lines c29_tree /\ Forall single_end c29_lines.
Proof. split; [apply (parses_paragraph _ true); vm_compute; reflexivity|single_ends]. Qed.

(* an article has one unnumbered paragraph (or one with another number than 1), or paragraphs from 1 on *)
Theorem C29_article : forall ls pi a, Forall single_end ls -> parse_article ls pi = Ok a ->
  article_in ls a /\
  Forall (fun p => well_numbered p /\ forall x, inside_sae (ChSae x) p -> well_numbered x) (a_paragraphs a) /\
  ((exists p, a_paragraphs a = [p]) \/ numbered_from KParagraph (u8 "1") (a_paragraphs a)) /\
  NoDup (map s_identifier (a_paragraphs a)).
Proof. exact article_numbering. Qed.
Print Assumptions C29_article.
Definition c29_article_lines := map (fun '(n, s) => text_line n s)
  [(20, u8 "12/A. § [Cím]"); (30, u8 "(1) Első."); (30, u8 "(1a) Köztes."); (30, u8 "(2) Második.")].
Example C29_article_ex : Forall single_end c29_article_lines /\ exists a, parse_article c29_article_lines true = Ok a /\
  a_identifier a = u8 "12/A" /\ a_title a = Some (u8 "Cím") /\ map s_identifier (a_paragraphs a) = [Some (u8 "1"); Some (u8 "1a"); Some (u8 "2")].
Proof. split; [single_ends|]. eexists. vm_compute. auto. Qed.

(* an act: a preamble and elements one after the other; the number of a structural element is 1 or follows
   the last one of its type *)
Theorem C29_act : forall i d s lines a, Forall fine lines -> parse_act i d s lines = Ok a ->
  exists preamble body, lines = preamble ++ body /\ text_in preamble (act_preamble a) /\
    body_in true (fun _ => u8 "0") body (act_children a) /\ act_children a <> [] /\
    act_identifier a = i /\ act_publication_date a = d /\ act_subject a = s.
Proof. exact act_written. Qed.
Print Assumptions C29_act.
Definition c29_act_lines := map (fun '(n, s) => text_line n s)
  [(40, u8 "Az Országgyűlés"); (40, u8 "törvényt alkot."); (80, u8 "I. CÍM"); (80, u8 "AZ ELSŐ");
   (20, u8 "1. § Szöveg."); (80, u8 "II. CÍM"); (20, u8 "2. § (1) „Idézet"); (20, u8 "3. § itt” vége."); (20, u8 "3. § Más.")].
Definition c29_parse lines := parse_act (u8 "2345. évi I. törvény") (mk_date 2345 6 7) (u8 "Tárgy") lines.
Example C29_act_ex : Forall fine c29_act_lines /\ exists a, c29_parse c29_act_lines = Ok a /\
  act_preamble a = u8 "Az Országgyűlés törvényt alkot." /\
  map (fun c => match c with AArticle a => a_identifier a | AStruct e => se_title e end) (act_children a)
  = [u8 "AZ ELSŐ"; u8 "1"; []; u8 "2"; u8 "3"].
Proof. split; [fine_lines|]. eexists. vm_compute. auto. Qed.

(* The numbers of articles are not checked at all: two articles can have the same one, out of order too. *)
Theorem C29_articles_refuted : exists lines a, Forall fine lines /\ c29_parse lines = Ok a /\
  map a_identifier (articles_of (act_children a)) = [u8 "5"; u8 "2"; u8 "2"].
Proof.
  exists (map (text_line 20) [u8 "5. § A."; u8 "2. § B."; u8 "2. § C."]). eexists. split; [fine_lines|]. vm_compute. auto.
Qed.
Print Assumptions C29_articles_refuted.

(** C30: nothing but spaces is lost or added. *)
Theorem C30_nothing_lost : forall k ls s, parses k ls s -> Forall single_end ls ->
  exists t, spoken s t /\ ink t = ink (whole_text ls).
Proof. exact (fun k ls s H S => proj1 elements_ink k ls s (proj1 (parses_element k ls s H S))). Qed.
Print Assumptions C30_nothing_lost.
Example C30_nothing_lost_ex : ink (whole_text c29_lines) = u8 "(2)Kell,haa)azelsősor,b)vagyba)ez,bb)az,nemfordulelő." /\
  spoken c29_tree (u8 "(2) Kell, haa) az első sor,b) vagyba) ez,bb) az,nem fordul elő.").
Proof.
  split; [vm_compute; reflexivity|].
  refine (spoken_parts KParagraph (Some (u8 "2")) (u8 "Kell, ha") _ (u8 "a) az első sor,b) vagyba) ez,bb) az,") (Some (u8 "nem fordul elő.")) NO_META _).
  refine (spoken_element _ (u8 "a) az első sor,") _ (u8 "b) vagyba) ez,bb) az,") (spoken_text KAlphabeticPoint (Some (u8 "a")) _ _) _).
  refine (spoken_element _ (u8 "b) vagyba) ez,bb) az,") _ [] (spoken_parts KAlphabeticPoint (Some (u8 "b")) (u8 "vagy") _ (u8 "ba) ez,bb) az,") None NO_META _) spoken_nobody).
  refine (spoken_element _ (u8 "ba) ez,") _ (u8 "bb) az,") (spoken_text KAlphabeticSubpoint (Some (u8 "ba")) _ _) _).
  exact (spoken_element _ (u8 "bb) az,") _ [] (spoken_text KAlphabeticSubpoint (Some (u8 "bb")) _ _) spoken_nobody).
Qed.

(** C31: all that is inside an element begins at a line before which every quote is closed; the parts of an act
    too, if the quotes are balanced in the act. *)
Theorem C31_outside_quotes : forall k ls s, parses k ls s -> Forall single_end ls ->
  forall x, inside_sae (ChSae x) s -> begins ls x.
Proof.
  exact (fun k ls s H S => proj1 elements_begin k ls s (proj1 (parses_element k ls s H S)) (proj2 (parses_element k ls s H S))).
Qed.
Print Assumptions C31_outside_quotes.
Definition c31_lines := map (fun '(n, s) => text_line n s)
  [(30, u8 "(2) Kell"); (40, u8 "a) az „első"); (40, u8 "b) sor”,"); (40, u8 "b) vagy")].
Example C31_outside_quotes_ex : Forall single_end c31_lines /\
  parses KParagraph c31_lines (mk_sae KParagraph (Some (u8 "2")) None (Some (u8 "Kell"))
    (Some [ChSae (c29_point (u8 "a") (u8 "az „első b) sor”,")); ChSae (c29_point (u8 "b") (u8 "vagy"))]) None NO_META).
Proof. split; [single_ends|]. apply (parses_paragraph _ true). vm_compute. reflexivity. Qed.

Theorem C31_act : forall i d s lines a, Forall fine lines -> open_after lines = 0 -> parse_act i d s lines = Ok a ->
  forall c, In c (act_children a) -> exists before l group after, lines = before ++ (l :: group) ++ after /\ open_after before = 0 /\
    open_after (l :: group) = 0 /\ match c with AArticle a => article_in (l :: group) a | AStruct e => struct_in (l :: group) e end.
Proof. exact act_outside_quotes. Qed.
Print Assumptions C31_act.
Example C31_act_ex : Forall fine c29_act_lines /\ open_after c29_act_lines = 0.
Proof. split; [fine_lines|vm_compute; reflexivity]. Qed.
(* The preamble is cut at the first heading, quoted or not: a quote that is not closed in it is not seen. *)
Theorem C31_preamble_refuted : exists lines a, Forall fine lines /\ c29_parse lines = Ok a /\
  act_preamble a = u8 "Idézve: „" /\ map a_identifier (articles_of (act_children a)) = [u8 "1"].
Proof. exists [text_line 20 (u8 "Idézve: „"); text_line 20 (u8 "1. § A.")]. eexists. split; [fine_lines|]. vm_compute. auto. Qed.
Print Assumptions C31_preamble_refuted.

(** C32: quoted blocks are cut out of the lines in order, with at most a text after them.  A block on several
    lines ends where the quotes are closed. *)
Theorem C32_quoted : forall lines pi cs w, Forall single_end lines -> quoted_extract lines pi = Ok (cs, w) ->
  exists bs, cs = map ChQuoted bs /\ bs <> [] /\ quoted_blocks_in 0 lines bs w.
Proof. exact quoted_extract_sound. Qed.
Print Assumptions C32_quoted.
Definition c32_lines := map (text_line 20) [[]; u8 "„Első „belső” és"; u8 "második”"; []; u8 "„Másik.”"; u8 "szöveg"; u8 "lép."].
Definition quoted_texts (cs : list child) := map (fun c => match c with ChQuoted b => map l_content b | _ => [] end) cs.
Example C32_quoted_ex : Forall single_end c32_lines /\ exists cs, quoted_extract c32_lines true = Ok (cs, Some (u8 "szöveg lép.")) /\
  quoted_texts cs = [[u8 "Első „belső” és"; u8 "második"]; [u8 "Másik."]].
Proof. split; [single_ends|]. eexists. vm_compute. auto. Qed.
(* A block on a single line ends at its end even if the quotes in it are not balanced. *)
Theorem C32_balance_refuted : exists lines cs, Forall single_end lines /\ quoted_extract lines true = Ok (cs, Some (u8 "itt”")) /\
  quoted_texts cs = [[u8 "Első „belső"]].
Proof. exists (map (text_line 20) [u8 "„Első „belső”"; u8 "itt”"]). eexists. split; [single_ends|]. vm_compute. auto. Qed.
Print Assumptions C32_balance_refuted.

(** C34: on lines whose parts are single characters the parsers fail only with their own errors. *)
Theorem C34_paragraph_errors : forall l ls pi e, Forall char_parts (l :: ls) -> parse_paragraph (l :: ls) pi = Err e ->
  e = SubArticleParsingError.
Proof.
  exact (fun l ls pi e C => sae_parse_errors paragraph_conf paragraph_subs l ls pi e known_paragraph paragraph_subs_sound C (or_introl eq_refl)).
Qed.
Print Assumptions C34_paragraph_errors.
Example C34_paragraph_errors_ex : parse_paragraph (map (text_line 20) [u8 "(1) Rossz „idézet"]) true = Err SubArticleParsingError.
Proof. vm_compute. reflexivity. Qed.
Theorem C34_article_errors : forall l ls pi e, char_parts l -> parse_article (l :: ls) pi = Err e -> e = ArticleParsingError.
Proof. exact parse_article_errors. Qed.
Print Assumptions C34_article_errors.
Example C34_article_errors_ex : parse_article [text_line 20 (u8 "1. § ")] true = Err ArticleParsingError.
Proof. vm_compute. reflexivity. Qed.
Theorem C34_act_errors : forall i d s lines e, parse_act i d s lines = Err e -> e = ActParsingError.
Proof. exact parse_act_errors. Qed.
Print Assumptions C34_act_errors.
Example C34_act_errors_ex : c29_parse [text_line 20 (u8 "Nincs benne szakasz.")] = Err ActParsingError.
Proof. vm_compute. reflexivity. Qed.
(* After the subpoint ny) the letter o) is not taken as the next one, and n) makes the parser fail. *)
Theorem C34_digraph_refuted : exists before,
  parse_numeric_point (before ++ [text_line 50 (u8 "ny) ny"); text_line 50 (u8 "n) n")]) true = Err SubArticleParsingError /\
  exists s cs, parse_numeric_point (before ++ [text_line 50 (u8 "ny) ny"); text_line 50 (u8 "o) o")]) true = Ok s /\
    s_children s = Some cs /\ List.length cs = 15%nat.
Proof.
  exists (text_line 20 (u8 "1. pont") :: map (fun c => text_line 50 (c :: u8 ") x"))
    (u8 "abcdefghijklmn")).
  split; [vm_compute; reflexivity|]. eexists. eexists. vm_compute. auto.
Qed.
Print Assumptions C34_digraph_refuted.

(** C35: the number, title and text of an article are told apart; a title may have one or two lines. *)
Theorem C35_title : forall lines title rest, article_title lines = Ok (title, rest) ->
  titled lines title rest \/ repeated_title lines title rest.
Proof. exact article_title_sound. Qed.
Print Assumptions C35_title.
Theorem C35_title_complete : forall lines title rest, titled lines title rest -> article_title lines = Ok (title, rest).
Proof. exact article_title_complete. Qed.
Print Assumptions C35_title_complete.
Example C35_title_ex : article_title (map (text_line 20) [u8 "[Az első"; u8 "cím]"; u8 "szöveg"])
  = Ok (Some (u8 "Az első cím"), [text_line 20 (u8 "szöveg")]).
Proof. vm_compute. reflexivity. Qed.
(* With three lines the second one is repeated without its last character, and the third one is lost. *)
Theorem C35_three_lines_refuted : article_title (map (text_line 20) [u8 "[Az első"; u8 "és második"; u8 "cím]"; u8 "szöveg"])
  = Ok (Some (u8 "Az első és második és másodi"), [text_line 20 (u8 "szöveg")]).
Proof. vm_compute. reflexivity. Qed.
Print Assumptions C35_three_lines_refuted.
Theorem C35_number : forall l i, ~ In 10%N (l_content l) -> article_extract l = Some i <-> article_heading (l_content l) i.
Proof. exact article_extract_spec. Qed.
Print Assumptions C35_number.
Example C35_number_ex : article_extract (text_line 20 (u8 "3:12/B. § Szöveg")) = Some (u8 "3:12/B") /\
  article_extract (text_line 20 (u8 "12/b. § Szöveg")) = None.
Proof. vm_compute. auto. Qed.

(** C53: no article is missed.  If the quotes are balanced in the act and the headings of
    articles outside quotes stand at the same distance from the margin, then the articles of the act are exactly those whose
    headings stand outside quotes. *)
Theorem C53_no_article_missed : forall i d s lines a x ids, Forall fine lines -> finite x -> open_after lines = 0 ->
  article_headings x 0 lines ids -> parse_act i d s lines = Ok a -> map a_identifier (articles_of (act_children a)) = ids.
Proof. exact parse_act_articles. Qed.
Print Assumptions C53_no_article_missed.
Example C53_no_article_missed_ex : finite (f_of_Z 20) /\
  article_headings (f_of_Z 20) 0 c29_act_lines [u8 "1"; u8 "2"; u8 "3"].
Proof.
  split; [exact I|]. apply find_article_headings; [|vm_compute; reflexivity].
  repeat (apply Forall_cons; [split; [vm_compute; intuition discriminate|vm_compute; first [reflexivity|congruence]]|]); apply Forall_nil.
Qed.
(* An indented heading is missed, of course: it is text of the article before. *)
Theorem C53_alignment_needed : exists lines a, Forall fine lines /\ c29_parse lines = Ok a /\
  map a_identifier (articles_of (act_children a)) = [u8 "1"].
Proof. exists [text_line 20 (u8 "1. § A."); text_line 21 (u8 "2. § B.")]. eexists. split; [fine_lines|]. vm_compute. auto. Qed.
Print Assumptions C53_alignment_needed.
