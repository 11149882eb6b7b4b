(* C72: layouts of whole acts and of structural block amendments. *)
From Coq Require Import Lia.
From Verif Require Import PyBase PyBaseFacts NumModel NumSpec IdModel IdSpec LineModel LineSpec LineProofs DateModel RefModel RefSpec
  TreeModel TreeSpec StructModel StructSpec LayoutSpec BodySpec StructProofs StructProofs2 StructProofs3 StructProofs5 LayoutProofs LayoutProofs2 LayoutProofs3 BodyProofs2 BodyProofs3 P_Layout.
Local Open Scope Z_scope.

(** C72: lines that are a layout of an act are parsed as that act. *)
Theorem C72_act : forall i d s lines a, act_layout a lines -> act_identifier a = i -> act_publication_date a = d -> act_subject a = s ->
  parse_act i d s lines = Ok a.
Proof. exact act_parsed. Qed.
Print Assumptions C72_act.

(** Acts whose texts are no headings, printed with one line for each text, are read back. *)
Theorem C72_printed : forall a lines, printed_act a lines ->
  parse_act (act_identifier a) (act_publication_date a) (act_subject a) lines = Ok a.
Proof. exact printed_parsed. Qed.
Print Assumptions C72_printed.

Definition c72_paragraph i t := mk_sae KParagraph i (Some t) None None None NO_META.
Definition c72_points := mk_sae KParagraph None None (Some (u8 "A bíróság dönt, ha"))
  (Some (map ChSae [c33_text KAlphabeticPoint (u8 "a") (u8 "kérik, vagy"); c33_text KAlphabeticPoint (u8 "b") (u8 "sürgős.")])) None NO_META.
Definition c72_act := mk_act (u8 "2020. évi I. törvény") (mk_date 2020 1 1) (u8 "a tárgyról") (u8 "Az Országgyűlés a következő törvényt alkotja:")
  [AStruct (mk_struct KPart (u8 "1") [] true);
   AStruct (mk_struct KChapter (u8 "1") (u8 "ALAPVETÉS") false);
   AStruct (mk_struct KSubtitle (u8 "1") (u8 "A törvény hatálya") false);
   AArticle (mk_article (u8 "1") None [c72_points]);
   AStruct (mk_struct KChapter (u8 "2") (u8 "VEGYES SZABÁLYOK") false);
   AArticle (mk_article (u8 "2") (Some (u8 "Hatálybalépés")) [c72_paragraph (Some (u8 "1")) (u8 "Ez a törvény hatályba lép."); c72_paragraph (Some (u8 "2")) (u8 "A szabályok maradnak.")])].
Definition c72_lines :=
  [line_of 20 (u8 "Az Országgyűlés a következő törvényt alkotja:"); line_of 20 (u8 "ÁLTALÁNOS RÉSZ"); line_of 20 (u8 "I. Fejezet"); line_of 20 (u8 "ALAPVETÉS");
   bold_of 20 (u8 "1. A törvény hatálya"); line_of 20 (u8 "1. § A bíróság dönt, ha"); line_of 40 (u8 "a) kérik, vagy"); line_of 40 (u8 "b) sürgős.");
   line_of 20 (u8 "II. Fejezet"); line_of 20 (u8 "VEGYES SZABÁLYOK");
   line_of 20 (u8 "2. § [Hatálybalépés]"); line_of 20 (u8 "(1) Ez a törvény hatályba lép."); line_of 20 (u8 "(2) A szabályok maradnak.")].
Ltac plain_now := apply looks_plain_ok; vm_compute; reflexivity.
Ltac quotes_now := let c := fresh in let H := fresh in intros c H; vm_compute in H; lia.
Ltac newline_now := let H := fresh in intros H; vm_compute in H; lia.
Ltac special_now := let H := fresh in intros H; vm_compute in H; intuition discriminate.
Example C72_printed_ex : printed_act c72_act c72_lines /\ parse_act (u8 "2020. évi I. törvény") (mk_date 2020 1 1) (u8 "a tárgyról") c72_lines = Ok c72_act.
Proof.
  assert (P : printed_act c72_act c72_lines); [|split; [exact P|exact (C72_printed _ _ P)]].
  assert (D : forall c, (48 <= c <= 57)%N -> ascii_digits [c]) by (intros c H; constructor; [exact H|constructor]).
  assert (HC : forall s i, struct_extract KChapter (line_of 20 s) = Ok (Some i) -> ~ In 10%N s -> heading KChapter s i).
  { intros s i H N. pose proof (struct_extract_heading KChapter (line_of 20 s) i) as E. rewrite line_content in E. now apply (E N). }
  assert (O : forall t, looks_ordinary t = true -> ordinary t) by exact looks_ordinary_ok.
  exists [line_of 20 (act_preamble c72_act)], (tl c72_lines). split; [reflexivity|]. split; [|split; [discriminate|split; [reflexivity|plain_now]]].
  cbn [act_children c72_act c72_lines tl].
  apply (printed_special no_numbers 0 (u8 "ÁLTALÁNOS RÉSZ")); [reflexivity|intros _; left; reflexivity|].
  apply printed_large; [discriminate|apply HC; [vm_compute; reflexivity|newline_now]|special_now|newline_now|quotes_now|intros _; left; reflexivity|discriminate|plain_now|quotes_now|].
  apply (printed_subtitle _ (u8 "1") (u8 "A törvény hatálya"));
    [constructor; [now apply D|discriminate]|intros _; left; reflexivity|newline_now|quotes_now| |].
  { intros j H. apply (proj2 (proj2 (looks_plain_ok (u8 "1. A törvény hatálya") eq_refl)) j). exact H. }
  apply (printed_untitled _ (u8 "1") c72_points (u8 "A bíróság dönt, ha") [line_of 40 (u8 "a) kérik, vagy"); line_of 40 (u8 "b) sürgős.")]);
    [constructor; [now apply D|discriminate]| |reflexivity|apply element_plain_ok; vm_compute; reflexivity|vm_compute; reflexivity|discriminate|].
  { eapply clean_parts; [apply O; reflexivity|reflexivity|constructor| |cbn; lia|exact Logic.I].
    eapply cleans_more; [an_id| |reflexivity| |].
    - apply clean_text; [apply O; reflexivity|an_id].
    - apply next_alphabet; [auto|]. exists [], [], (skipn 2 list_alphabet). split; [reflexivity|constructor].
    - eapply cleans_last; [an_id| |reflexivity]. apply clean_text; [apply O; reflexivity|an_id]. }
  apply printed_large; [discriminate|apply HC; [vm_compute; reflexivity|newline_now]|special_now|newline_now|quotes_now| |discriminate|plain_now|quotes_now|].
  { intros _. right. exists false, 1%N, None, false, 2%N, None. split; [exact Logic.I|]. split; [exact Logic.I|]. split; [vm_compute; reflexivity|]. split; [vm_compute; reflexivity|]. apply (succ_number 1). }
  apply (printed_titled _ (u8 "2") (u8 "Hatálybalépés") [c72_paragraph (Some (u8 "1")) (u8 "Ez a törvény hatályba lép."); c72_paragraph (Some (u8 "2")) (u8 "A szabályok maradnak.")] [] []);
    [constructor; [now apply D|discriminate]|newline_now|quotes_now| | |constructor].
  - apply clean_numbered. eapply cleans_more; [an_id| |reflexivity| |].
    + apply clean_text; [apply O; reflexivity|an_id].
    + eapply (next_plain KParagraph (u8 "1") (u8 "2") 1%N None); [unfold is_numeric_kind; auto|apply (numbered_plain (u8 "1")); [now apply D|discriminate]|apply (numbered_plain (u8 "2")); [now apply D|discriminate]].
    + eapply cleans_last; [an_id| |reflexivity]. apply clean_text; [apply O; reflexivity|an_id].
  - constructor; [|constructor; [|constructor]]; apply element_plain_ok; vm_compute; reflexivity.
Qed.

(** If the numbers do not follow each other, an element is not recognised and its lines become the end of the text
    before it: here an act without its second chapter. *)
Theorem C72_gap_refuted : exists a p, parse_act (u8 "x") (mk_date 2020 1 1) []
    [line_of 20 (u8 "I. FEJEZET"); line_of 20 (u8 "ELSŐ"); line_of 20 (u8 "1. § Szöveg."); line_of 20 (u8 "III. FEJEZET"); line_of 20 (u8 "HARMADIK"); line_of 20 (u8 "2. § Másik.")] = Ok a /\
  (forall e, In (AStruct e) (act_children a) -> se_identifier e = u8 "1") /\
  In (AArticle (mk_article (u8 "1") None [p])) (act_children a) /\ s_text p = Some (u8 "Szöveg. III. FEJEZET HARMADIK").
Proof.
  eexists. exists (c72_paragraph None (u8 "Szöveg. III. FEJEZET HARMADIK")). split; [vm_compute; reflexivity|]. cbn [act_children].
  split; [intros e [[= <-]|[H|[H|[]]]]; [reflexivity|discriminate H|discriminate H]|]. split; [right; left; reflexivity|reflexivity].
Qed.
Print Assumptions C72_gap_refuted.

(** Block amendments of structural elements: a layout is parsed as what it shows; what is before its first element is lost. *)
Theorem C72_block : forall r intro wrap lead previous body cs,
  calm_lines false no_numbers None EMPTY_LINE 0 lead previous -> balanced 0 lead -> Forall one_line lead ->
  body_layout false false no_numbers None previous body cs -> cs <> [] ->
  parse_block_amendment (ASRef r) intro wrap (lead ++ body) =
  Ok (mk_sae KBlockAmendmentContainer None None intro (Some (map act_child_child cs)) wrap NO_META).
Proof. exact block_parsed. Qed.
Print Assumptions C72_block.
(* and nothing else is lost *)
Theorem C72_block_sound : forall r intro wrap lines s, Forall fine lines -> parse_block_amendment (ASRef r) intro wrap lines = Ok s ->
  exists lead body cs, lines = lead ++ body /\ open_after lead = 0 /\ body_in false no_numbers body cs /\ cs <> [] /\
    s = mk_sae KBlockAmendmentContainer None None intro (Some (map act_child_child cs)) wrap NO_META.
Proof. exact block_sound. Qed.
Print Assumptions C72_block_sound.

Definition c72_position := mk_sref None None None None (Some (u8 "2")) None None.
Definition c72_article := mk_article (u8 "7") None [c72_paragraph None (u8 "A szöveg.")].
Definition c72_block := [line_of 20 (u8 "II. FEJEZET"); line_of 20 (u8 "ÚJ SZABÁLYOK"); line_of 20 (u8 "7. § A szöveg.")].
Example C72_block_ex : body_layout false false no_numbers None EMPTY_LINE c72_block [AStruct (mk_struct KChapter (u8 "2") (u8 "ÚJ SZABÁLYOK") false); AArticle c72_article] /\
  parse_block_amendment (ASRef c72_position) None None c72_block =
  Ok (mk_sae KBlockAmendmentContainer None None None (Some [ChStruct (mk_struct KChapter (u8 "2") (u8 "ÚJ SZABÁLYOK") false); ChArticle c72_article]) None NO_META).
Proof.
  assert (B : body_layout false false no_numbers None EMPTY_LINE c72_block [AStruct (mk_struct KChapter (u8 "2") (u8 "ÚJ SZABÁLYOK") false); AArticle c72_article]).
  { apply (layout_with_struct false false no_numbers None EMPTY_LINE (line_of 20 (u8 "ÚJ SZABÁLYOK")) (line_of 20 (u8 "II. FEJEZET")) [line_of 20 (u8 "ÚJ SZABÁLYOK")] [line_of 20 (u8 "7. § A szöveg.")]).
    - apply struct_titled; [discriminate| |special_now|apply one_text; discriminate].
      apply (struct_extract_heading KChapter); [newline_now|vm_compute; reflexivity].
    - intros H. discriminate H.
    - repeat (constructor; [vm_compute; discriminate|]). vm_compute. constructor.
    - repeat constructor; unfold one_line; newline_now.
    - apply calm_line; [reflexivity|apply calm_text; plain_now|constructor].
    - change [line_of 20 (u8 "7. § A szöveg.")] with ([line_of 20 (u8 "7. § A szöveg.")] ++ []). eapply layout_with_article; [| | | |constructor|constructor].
      + eapply (layout_article false (u8 "7") [32%N] _ _ (u8 "A szöveg.") [] None [_] [] [_]);
          [constructor; [repeat constructor; discriminate|discriminate]|auto|reflexivity|newline_now|vm_compute; reflexivity|eapply untitled; [vm_compute; reflexivity|discriminate]|reflexivity|constructor|auto|].
        apply layout_one; [discriminate| |discriminate].
        eapply (layout_text false KParagraph (u8 "1") None _ (line_of 20 (u8 "A szöveg.")));
          [|constructor|apply one_text; discriminate|constructor; [vm_compute; discriminate|vm_compute; constructor]|].
        * split; [repeat constructor|]. split; [apply line_typed|]. split; [reflexivity|]. split; [reflexivity|].
          intros j I [t E]. inversion I; subst; vm_compute in E; try discriminate E; intuition discriminate.
        * constructor; [|constructor]. intros _. eapply (ordinary_starts _ _ KParagraph (u8 "1")); [apply class_paragraph|reflexivity|].
          apply looks_ordinary_ok. reflexivity.
      + exact Logic.I.
      + constructor; [vm_compute; discriminate|vm_compute; constructor].
      + repeat constructor. unfold one_line. newline_now. }
  split; [exact B|]. apply (C72_block _ None None [] EMPTY_LINE _ _ ltac:(constructor) ltac:(constructor) ltac:(constructor) B). discriminate.
Qed.

(** The heading of a subtitle before the first element is lost if it is not bold. *)
Theorem C72_lead_refuted : parse_block_amendment (ASRef c72_position) None None [line_of 20 (u8 "5. Új alcím"); line_of 20 (u8 "7. § A szöveg.")] =
  Ok (mk_sae KBlockAmendmentContainer None None None (Some [ChArticle c72_article]) None NO_META).
Proof. vm_compute. reflexivity. Qed.
Print Assumptions C72_lead_refuted.
(** The title of a chapter in bold becomes a subtitle of its own in a block amendment, and the chapter has no title; in an act
    the same lines are read as they are meant. *)
Theorem C72_bold_title_refuted : let lines := [line_of 20 (u8 "I. FEJEZET"); bold_of 20 (u8 "ÚJ SZABÁLYOK"); line_of 20 (u8 "7. § A szöveg.")] in
  parse_block_amendment (ASRef c72_position) None None lines =
    Ok (mk_sae KBlockAmendmentContainer None None None
         (Some [ChStruct (mk_struct KChapter (u8 "1") [] false); ChStruct (mk_struct KSubtitle [] (u8 "ÚJ SZABÁLYOK") false); ChArticle c72_article]) None NO_META) /\
  exists a, parse_act (u8 "x") (mk_date 2020 1 1) [] lines = Ok a /\
    act_children a = [AStruct (mk_struct KChapter (u8 "1") (u8 "ÚJ SZABÁLYOK") false); AArticle c72_article].
Proof. split; [vm_compute; reflexivity|]. eexists. split; vm_compute; reflexivity. Qed.
Print Assumptions C72_bold_title_refuted.
