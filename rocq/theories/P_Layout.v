(* C33: a tree that is laid out properly is read back. *)
From Coq Require Import Lia.
From Verif Require Import PyBase PyBaseFacts NumModel NumSpec IdModel IdSpec LineModel LineSpec LineProofs DateModel RefModel RefSpec
  TreeModel TreeSpec StructModel StructSpec StructPatterns StructProofs LayoutSpec LayoutProofs LayoutProofs2 LayoutProofs3.
Local Open Scope Z_scope.

(** C33: every layout of an element is parsed as that element, with its lists, quoted blocks and the text after
    them, down to the subpoints. *)
Theorem C33_paragraph : forall pi ls s, layout pi KParagraph (u8 "1") ls s -> parse_paragraph ls pi = Ok s.
Proof. exact (fun pi ls s H => proj1 (proj1 (layout_parsed pi) _ _ _ _ H _ _ class_paragraph)). Qed.
Print Assumptions C33_paragraph.

Theorem C33_points : forall pi ls s,
  (layout pi KAlphabeticPoint (u8 "a") ls s -> parse_alphabetic_point ls pi = Ok s) /\
  (layout pi KNumericPoint (u8 "1") ls s -> parse_numeric_point ls pi = Ok s) /\
  (forall prefix, Forall small_letter prefix -> layout pi KAlphabeticSubpoint (prefix ++ u8 "a") ls s ->
     parse_alphabetic_subpoint prefix ls pi = Ok s) /\
  (layout pi KNumericSubpoint (u8 "1") ls s -> parse_numeric_subpoint ls pi = Ok s).
Proof.
  intros pi ls s. pose proof (proj1 (layout_parsed pi)) as P.
  split; [|split; [|split]]; [intros H|intros H|intros prefix A H|intros H]; eapply P; eauto; now constructor.
Qed.
Print Assumptions C33_points.

(* a layout that is not a rendering: a text on two lines, a quoted block on three, a text after it *)
Definition c33_lines := map (fun '(x, s) => line_of x s)
  [(20, u8 "(3) A törvény szö-"); (15, u8 "vege „itt a) nem”"); (20, u8 "„(1) Új"); (20, u8 "a) „idézet”"); (20, u8 "pont.”"); (0, []); (20, u8 "lép.")].
Definition c33_block := [line_of 20 (u8 "(1) Új"); line_of 20 (u8 "a) „idézet”"); line_of 20 (u8 "pont.")].
Example C33_paragraph_ex : exists b, map l_content b = map l_content c33_block /\
  layout true KParagraph (u8 "1") c33_lines
    (mk_sae KParagraph (Some (u8 "3")) None (Some (u8 "A törvény szö-vege „itt a) nem”")) (Some (map ChQuoted [b])) (Some (u8 "lép.")) NO_META).
Proof.
  assert (Q : exists l' e', l_content l' = u8 "(1) Új" /\ l_content e' = u8 "pont." /\
    l_slice (line_of 20 (u8 "„(1) Új")) 1 None = Ok l' /\ l_slice (line_of 20 (u8 "pont.”")) 0 (Some (-1)) = Ok e').
  { eexists _, _. split; [|split; [|split; vm_compute; reflexivity]]; vm_compute; reflexivity. }
  destruct Q as (l' & e' & CL & CE & SL & SE).
  exists (l' :: [line_of 20 (u8 "a) „idézet”")] ++ [e']). split; [cbn [app map]; rewrite CL, CE; reflexivity|].
  assert (TY : Forall typed c33_lines) by (unfold c33_lines; cbn [map]; repeat (constructor; [apply line_typed|]); constructor).
  unfold c33_lines in *. cbn [map] in *.
  apply (layout_quoted true (u8 "1") (Some (u8 "3")) _ (line_of 20 (u8 "A törvény szö-")) [line_of 15 (u8 "vege „itt a) nem”")] _ _ _ 8222%N
    [l' :: [line_of 20 (u8 "a) „idézet”")] ++ [e']] (Some (u8 "lép."))).
  - split; [apply line_typed|]. split; [apply line_typed|]. split; [|vm_compute; reflexivity].
    apply (item_paragraph _ (u8 "3") 3%N None); [apply (numbered_plain (u8 "3")); [repeat constructor; discriminate|discriminate]|].
    intros [H|[]]; discriminate.
  - now inversion TY.
  - replace (u8 "A törvény szö-vege „itt a) nem”") with (joined_lines [line_of 20 (u8 "A törvény szö-"); line_of 15 (u8 "vege „itt a) nem”")])
      by (vm_compute; reflexivity). apply joined_lines_text.
  - repeat (constructor; [vm_compute; discriminate|]). vm_compute. constructor.
  - assert (N : forall x s, looks_ordinary s = true -> starts_nothing KParagraph (Some (u8 "3")) (line_of x s)).
    { intros x s H. apply (ordinary_starts _ _ _ _ _ _ _ class_paragraph); [|now apply looks_ordinary_ok].
      apply (item_paragraph _ (u8 "3") 3%N None); [apply (numbered_plain (u8 "3")); [repeat constructor; discriminate|discriminate]|].
      intros [X|[]]; discriminate. }
    assert (M : starts_nothing KParagraph (Some (u8 "3")) (line_of 15 (u8 "vege „itt a) nem”"))).
    { split.
      - intros ck first CL' [t E]. inversion CL'; subst; vm_compute in E; discriminate.
      - intros _ c [-> | ->] [t E]; vm_compute in E; discriminate. }
    constructor; [intros _; now apply N|]. constructor; [intros _; exact M|constructor].
  - now left.
  - exists (u8 "(1) Új"). vm_compute. reflexivity.
  - repeat (constructor; [vm_compute; discriminate|]). vm_compute. constructor.
  - apply (quotes_lines [] (line_of 20 (u8 "„(1) Új")) l' 8222%N [line_of 20 (u8 "a) „idézet”")] (line_of 20 (u8 "pont.”")) e' [line_of 0 []; line_of 20 (u8 "lép.")] []); auto.
    + now left.
    + exists (u8 "(1) Új"). vm_compute. reflexivity.
    + intros [t E]. assert (X : last (l_content (line_of 20 (u8 "„(1) Új"))) 0%N = 8221%N) by (rewrite E; apply last_last). vm_compute in X. discriminate.
    + intros [|? [|? ?]] x b [= <- E] _; vm_compute; discriminate.
    + exists (u8 "pont."). vm_compute. reflexivity.
    + apply (quotes_text [line_of 0 []] (line_of 20 (u8 "lép.")) []).
      * now repeat constructor.
      * discriminate.
      * intros c [-> | ->] [t E]; vm_compute in E; discriminate.
      * now apply one_text.
  - discriminate.
Qed.
Example C33_paragraph_ex2 : exists b, map l_content b = map l_content c33_block /\ parse_paragraph c33_lines true =
  Ok (mk_sae KParagraph (Some (u8 "3")) None (Some (u8 "A törvény szö-vege „itt a) nem”")) (Some (map ChQuoted [b])) (Some (u8 "lép.")) NO_META).
Proof. destruct C33_paragraph_ex as (b & E & L). exists b. split; [exact E|]. now apply C33_paragraph. Qed.

(** Every tree of ordinary texts, printed with one line for each text, is read back. *)
Theorem C33_render : forall s, clean KParagraph (u8 "1") s -> parse_paragraph (render s) true = Ok s.
Proof. exact (fun s H => render_parsed s true H eq_refl). Qed.
Print Assumptions C33_render.

Definition c33_text k i t := mk_sae k (Some i) (Some t) None None None NO_META.
Definition c33_tree := mk_sae KParagraph (Some (u8 "2a")) None (Some (u8 "A bíróság, ha"))
  (Some (map ChSae
     [c33_text KAlphabeticPoint (u8 "m") (u8 "kéri,");
      mk_sae KAlphabeticPoint (Some (u8 "n")) None (Some (u8 "nem kéri, de"))
        (Some (map ChSae [c33_text KAlphabeticSubpoint (u8 "na") (u8 "sürgős,"); c33_text KAlphabeticSubpoint (u8 "nb") (u8 "vagy fontos,")]))
        (Some (u8 "vagy más okból")) NO_META;
      c33_text KAlphabeticPoint (u8 "ny") (u8 "egyébként")])) (Some (u8 "dönt.")) NO_META.
(* the points start with m here: the list is not one of a paragraph *)
Example C33_render_needs_first : parse_paragraph (render c33_tree) true <> Ok c33_tree.
Proof. vm_compute. discriminate. Qed.
Definition c33_tree2 := mk_sae KParagraph (Some (u8 "2a")) None (Some (u8 "A bíróság, ha"))
  (Some (map ChSae
     [c33_text KAlphabeticPoint (u8 "a") (u8 "kéri,");
      mk_sae KAlphabeticPoint (Some (u8 "b")) None (Some (u8 "nem kéri, de"))
        (Some (map ChSae [c33_text KAlphabeticSubpoint (u8 "ba") (u8 "sürgős,"); c33_text KAlphabeticSubpoint (u8 "bb") (u8 "vagy fontos,")]))
        (Some (u8 "vagy más okból")) NO_META])) (Some (u8 "dönt.")) NO_META.
Ltac an_id :=
  cbn [app];
  match goal with
  | |- item_id KParagraph _ _ => eapply item_paragraph; [eapply numbered_plain + eapply (numbered_letter (u8 "2") 97%N)|intros H; cbn in H; intuition discriminate];
      try (repeat constructor; discriminate); try discriminate; unfold small_letter; lia
  | |- item_id KAlphabeticPoint _ [?c] => apply (item_letter _ [] c); [auto|unfold small_letter; lia]
  | |- item_id KAlphabeticSubpoint _ [?p; ?c] => apply (item_letter _ [p] c); [auto|unfold small_letter; lia]
  end.
Lemma c33_clean : clean KParagraph (u8 "1") c33_tree2.
Proof.
  assert (O : forall t, looks_ordinary t = true -> ordinary t) by exact looks_ordinary_ok.
  eapply clean_parts; [apply O; reflexivity|an_id|constructor| |cbn; lia|split; [apply O; reflexivity|discriminate]].
  eapply cleans_more; [an_id| |reflexivity| |].
  - apply clean_text; [apply O; reflexivity|an_id].
  - apply next_alphabet; [auto|]. exists [], [], (skipn 2 list_alphabet). split; [reflexivity|constructor].
  - eapply cleans_last; [an_id| |reflexivity].
    eapply clean_parts; [apply O; reflexivity|an_id|constructor| |cbn; lia|split; [apply O; reflexivity|discriminate]].
    eapply cleans_more; [an_id| |reflexivity| |].
    + apply clean_text; [apply O; reflexivity|an_id].
    + apply next_prefixed. unfold small_letter. lia.
    + eapply cleans_last; [an_id| |reflexivity]. apply clean_text; [apply O; reflexivity|an_id].
Qed.
Example C33_render_ex : map (fun l => (l_indent l, l_content l)) (render c33_tree2) =
    [(f_of_Z 20, u8 "(2a) A bíróság, ha"); (f_of_Z 40, u8 "a) kéri,"); (f_of_Z 40, u8 "b) nem kéri, de"); (f_of_Z 60, u8 "ba) sürgős,");
     (f_of_Z 60, u8 "bb) vagy fontos,"); (f_of_Z 50, u8 "vagy más okból"); (f_of_Z 30, u8 "dönt.")] /\
  parse_paragraph (render c33_tree2) true = Ok c33_tree2.
Proof. split; [vm_compute; reflexivity|exact (C33_render _ c33_clean)]. Qed.

(** The same for articles: layouts are read as what they show, and rendered articles are read back. *)
Theorem C33_article : forall pi ls a, article_layout pi ls a -> parse_article ls pi = Ok a.
Proof. exact article_parsed. Qed.
Print Assumptions C33_article.
Theorem C33_render_article : forall i title ps, article_number i -> ~ In 10%N title -> clean_paragraphs ps ->
  parse_article (render_article i title ps) true = Ok (mk_article i (Some title) ps).
Proof. exact (fun i title ps H1 H2 H3 => article_parsed true _ _ (render_article_layout i title ps H1 H2 H3)). Qed.
Print Assumptions C33_render_article.
Example C33_render_article_ex : clean_paragraphs [c33_tree2] /\
  parse_article (render_article (u8 "5:12/A") (u8 "A kérelem") [c33_tree2]) true = Ok (mk_article (u8 "5:12/A") (Some (u8 "A kérelem")) [c33_tree2]).
Proof.
  assert (C : clean_paragraphs [c33_tree2]) by (apply clean_one; [exact c33_clean|discriminate]). split; [exact C|].
  apply C33_render_article; [| |exact C].
  - apply (article_in_book (u8 "5") (u8 "12/A")); [repeat constructor; discriminate|discriminate|intros H; cbn in H; intuition discriminate|].
    apply (article_inserted (u8 "12") 65%N); [repeat constructor; discriminate|discriminate|split; discriminate].
  - intros H; cbn in H; intuition discriminate.
Qed.
