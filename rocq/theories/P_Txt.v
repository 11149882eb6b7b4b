(* C50: plain text output. *)
From Coq Require Import Lia.
From Coq Require Import ZifyBool ZifyNat ZifyN.
From Verif Require Import PyBase PyBaseFacts IdModel LineModel DateModel RefModel TreeModel TreeSpec StructModel GazModel P_Tree HtmlModel HtmlSpec
  TxtModel TxtSpec TxtProofs TxtProofs2 TxtProofs3.
Local Open Scope Z_scope.

(* a splitting of texts by spaces *)
Fixpoint c50_words (word s : pystr) : list pystr :=
  match s with [] => [rev word] | c :: t => if (c =? 32)%N then rev word :: [c] :: c50_words [] t else c50_words (c :: word) t end.
Definition c50_wrapper : wrapper := mk_wrapper (c50_words []) true.
Lemma c50_splits : splits c50_wrapper.
Proof.
  intros s. cbn [w_split c50_wrapper]. change s with (rev [] ++ s) at 2. generalize (@nil N). induction s as [|c s IH]; intros word; cbn [c50_words]; [reflexivity|].
  destruct (c =? 32)%N; cbn [concat]; rewrite IH; [reflexivity|]. cbn [rev]. now rewrite <- app_assoc.
Qed.

(* Wrapped lines show the text: each has the indentation's length in front, the indentation itself
   in front of the first, and none is longer than the width.  There is no room for anything exactly
   if the indentation is as long as the width. *)
Theorem C50_wrap : forall w s indent width, splits w -> 0 < width ->
  (width <= Z.of_nat (List.length indent) /\ wrapped_print w s indent width = Err ValueError) \/
  (Z.of_nat (List.length indent) < width /\ exists o lines, wrapped_print w s indent width = Ok o /\
     no_space (concat lines) = no_space s /\
     Forall2 (fun p l => fst p = true /\ Z.of_nat (List.length (snd p)) <= width /\ exists i, snd p = i ++ l /\ List.length i = List.length indent) o lines /\
     match o with [] => True | (_, first) :: rest => startswith indent first = true /\ Forall (fun p => startswith (repeat 32%N (List.length indent)) (snd p) = true) rest end).
Proof.
  intros w s indent width S W. unfold wrapped_print. destruct (Z.eqb_spec width 0); [lia|]. destruct (wrap_spec w s (width - Z.of_nat (List.length indent)) S) as [[L ->]|(L & lines & -> & H & F)].
  - left. split; [lia|reflexivity].
  - right. split; [lia|]. exists (print_lines indent lines), lines. split; [reflexivity|]. split; [exact H|]. split.
    + pose proof (print_lines_rows lines indent) as R. clear H. revert R F. generalize (print_lines indent lines). induction lines as [|l ls IH]; intros o R F; inversion R as [|p q o' l' (E & i & Ep & El) R']; subst; inversion F; subst; constructor; auto.
      split; auto. split; [|eauto]. rewrite Ep, app_length. lia.
    + assert (St : forall a b : pystr, startswith a (a ++ b) = true) by (intros a b; apply startswith_spec; eauto).
      destruct lines as [|l ls]; cbn [print_lines]; [exact I|]. split; [apply St|]. clear H F. change (repeat 32%N (List.length indent)) with (blanks indent).
      assert (G : forall ls, Forall (fun p => startswith (blanks indent) (snd p) = true) (print_lines (blanks indent) ls)).
      { induction ls0 as [|x xs IH]; cbn [print_lines]; constructor; [apply St|]. replace (blanks (blanks indent)) with (blanks indent); [exact IH|]. unfold blanks, spaces. now rewrite repeat_length. }
      apply G.
Qed.
Print Assumptions C50_wrap.
Example C50_wrap_ex : splits c50_wrapper /\ wrapped_print c50_wrapper (u8 "A nagyon hosszú elkelkáposztásítottalanítottátok") (u8 "(1)  ") 20
  = Ok [(true, u8 "(1)  A nagyon hosszú"); (true, u8 "     elkelkáposztásí"); (true, u8 "     tottalanítottát"); (true, u8 "     ok")].
Proof. split; [exact c50_splits|vm_compute; reflexivity]. Qed.

(* Every title, text, intro, quoted line and wrap-up is in the file, each after the one before, up to
   white space; nothing is on the standard output. *)
Theorem C50_in_order : forall w width a o, splits w -> width <> 0 -> txt_act w width [] a = Ok o ->
  printed false o = [] /\ in_order (map no_space (act_texts a)) (no_space (printed true o)).
Proof.
  intros w width a o S W E. destruct (act_has w width S W [] a o E) as [F O]. destruct (printed_text o F) as [T N]. split; [exact N|]. rewrite T. exact O.
Qed.
Print Assumptions C50_in_order.
Example C50_in_order_ex : (exists o, txt_act c50_wrapper 90 [] t_act = Ok o) /\
  act_texts t_act = [t_id; u8 "Tárgy"; []; u8 "I. FEJEZET"; u8 "Fejezet"; u8 "Cím"; u8 "Egy."; u8 "Bevezető:"; u8 "első"; u8 "második"; u8 "x"; u8 "y"; u8 "vége"; [];
    u8 "Módosul:"; []; u8 "„"; u8 "Idézett."; []; u8 "”"; []; []; []; u8 "Számok:"; u8 "egy"; u8 "kettő"; []].
Proof. split; [eexists; vm_compute; reflexivity|vm_compute; reflexivity]. Qed.

(* If every label has a text to stand before, the file is the labels and texts in order and nothing
   else, up to white space. *)
Theorem C50_all : forall w width a o, splits w -> width <> 0 -> speaks_act a -> txt_act w width [] a = Ok o ->
  no_space (printed true o) = no_space (concat (act_txt a)).
Proof.
  intros w width a o S W Sp E. destruct (act_shows w width S W [] a o eq_refl Sp E) as [F T]. destruct (printed_text o F) as [P _]. congruence.
Qed.
Print Assumptions C50_all.
Definition c50_act := mk_act t_id (mk_date 2012 7 13) (u8 "Tárgy") (u8 "Preambulum.") [AArticle (mk_article (u8 "3") (Some (u8 "Cím"))
  [ mk_sae KParagraph (Some (u8 "1")) None None (Some [ChSae (t_apoint (u8 "a") (u8 "első pont szövege")); ChSae (t_apoint (u8 "b") (u8 "második"))]) (Some (u8 "vége")) NO_META;
    mk_sae KParagraph (Some (u8 "2")) None (Some (u8 "Módosul:"))
      (Some [ChSae (mk_sae KBlockAmendmentContainer None None None (Some [ChSae (mk_sae KParagraph (Some (u8 "9")) (Some (u8 "Idézett.")) None None None NO_META)]) None NO_META)])
      None NO_META])].
Example C50_all_ex : speaks_act c50_act /\ (o <- txt_act c50_wrapper 30 [] c50_act ;; Ok (map snd o)) = Ok
  [u8 "==== 2012. évi C. törvény - Tárgy =====" ++ [10%N]; u8 "Preambulum.";
   u8 "3. §           [Cím]"; u8 "          (1)  a)   első pont"; u8 "                    szövege"; u8 "               b)   második"; u8 "               vége";
   u8 "          (2)  Módosul:"; u8 "               „"; u8 "                    (9)  Idéze"; u8 "                         tt."; u8 "               ”"; []].
Proof.
  split; [|vm_compute; reflexivity]. intros x [E|[]]. injection E as <-. cbn. split; [left; discriminate|]. repeat split; auto; vm_compute; discriminate.
Qed.

(* A label without a text to stand before is lost: the article is not in the file. *)
Theorem C50_lost_label_refuted : exists a, built_act a /\ forall w width, splits w -> 0 < width ->
  exists o, txt_act w width [] a = Ok o /\ no_space (printed true o) = no_space (u8 "==== " ++ act_identifier a ++ u8 " - ===== ") /\
    act_txt a = [u8 "===="; act_identifier a; u8 "-"; []; u8 "====="; []; u8 "5"; u8 ". §"].
Proof.
  exists (mk_act t_id (mk_date 2012 7 13) [] [] [AArticle (mk_article (u8 "5") None [])]). split.
  - intros x [E|[]]. injection E as <-. split; [|constructor]. apply (built_article_intro (u8 "5") None []); [|reflexivity]. intros p [].
  - intros w width S W. destruct (wrap_spec w [] (width - Z.of_nat (List.length (@nil N))) S) as [[L _]|(_ & lines & E & H & _)]; [cbn in L; lia|].
    set (a := mk_act _ _ _ _ _). assert (E1 : txt_act w width [] a = Ok (to_file (heading t_id []) ++ print_lines [] lines ++ [(true, [])])).
    { unfold txt_act. cbn [act_preamble a]. unfold wrapped_print. destruct (Z.eqb_spec width 0); [lia|]. rewrite E. reflexivity. }
    eexists. split; [exact E1|]. split; [|reflexivity]. destruct (print_lines_shows lines []) as [F T].
    destruct (printed_text (to_file (heading t_id []) ++ print_lines [] lines ++ [(true, [])])) as [P _]; [apply file_app; [apply file_one|apply file_app; [exact F|apply file_one]]|].
    rewrite P, !text_app. unfold text at 2. rewrite T, H. destruct lines; reflexivity.
Qed.
Print Assumptions C50_lost_label_refuted.
(* The label of a paragraph that begins with an amendment is there again for each line of it. *)
Theorem C50_repeated_label_refuted : exists a o, built_act a /\ txt_act c50_wrapper 90 [] a = Ok o /\
  map snd o = [u8 "==== 2012. évi C. törvény - Tárgy =====" ++ [10%N]; u8 "3. §      (2)  „"; u8 "3. §      (2)       (9)  Idézett."; u8 "3. §      (2)       (10) Másik."; u8 "3. §      (2)  ”"; []].
Proof.
  exists (mk_act t_id (mk_date 2012 7 13) (u8 "Tárgy") [] [AArticle (mk_article (u8 "3") None
    [mk_sae KParagraph (Some (u8 "2")) None None
      (Some [ChSae (mk_sae KBlockAmendmentContainer None None None
         (Some [ChSae (mk_sae KParagraph (Some (u8 "9")) (Some (u8 "Idézett.")) None None None NO_META); ChSae (mk_sae KParagraph (Some (u8 "10")) (Some (u8 "Másik.")) None None None NO_META)]) None NO_META)])
      None NO_META])]).
  match goal with |- exists o, built_act ?a /\ _ => destruct (txt_act c50_wrapper 90 [] a) as [o|] eqn:T; [exists o; vm_compute in T; apply ok_inj in T; subst o; split; [|split; [vm_compute; reflexivity|reflexivity]]|vm_compute in T; discriminate] end.
  intros x [E|[]]. injection E as <-. split; [|constructor; [reflexivity|constructor]].
  match goal with |- built_article (mk_article ?i ?t ?ps) => apply (built_article_intro i t ps); [|reflexivity] end. intros p [<-|[]]. apply builtb_ok. reflexivity.
Qed.
Print Assumptions C50_repeated_label_refuted.
(* With width 0, which is for lines that are not to be wrapped, texts are not in the file at all. *)
Theorem C50_width_zero_refuted : exists a, forall w, exists o, txt_act w 0 [] a = Ok o /\
  no_space (printed true o) = no_space (u8 "==== " ++ act_identifier a ++ u8 " - Tárgy =====") /\
  printed false o = [10%N] ++ u8 "3. §      (1)  Egy." ++ [10%N].
Proof.
  exists (mk_act t_id (mk_date 2012 7 13) (u8 "Tárgy") [] [AArticle (mk_article (u8 "3") None [mk_sae KParagraph (Some (u8 "1")) (Some (u8 "Egy.")) None None None NO_META])]).
  intros w. exists [(true, heading t_id (u8 "Tárgy")); (false, []); (false, u8 "3. §      (1)  Egy."); (true, [])]. split; [vm_compute; reflexivity|]. split; vm_compute; reflexivity.
Qed.
Print Assumptions C50_width_zero_refuted.
(* An element that has only an introduction can be built, but has no plain text. *)
Theorem C50_only_intro_refuted : exists a, built_act a /\ forall w width, splits w -> 15 < width -> txt_act w width [] a = Err AssertionError.
Proof.
  exists (mk_act t_id (mk_date 2012 7 13) [] [] [AArticle (mk_article (u8 "1") None [mk_sae KParagraph None None (Some (u8 "Bevezető")) None None NO_META])]).
  split.
  - intros x [E|[]]. injection E as <-. split; [|constructor; [reflexivity|constructor]]. match goal with |- built_article (mk_article ?i ?t ?ps) => apply (built_article_intro i t ps); [|reflexivity] end. intros p [<-|[]]. apply builtb_ok. reflexivity.
  - intros w width S W. unfold txt_act. cbn [act_preamble act_children]. unfold wrapped_print at 1. destruct (Z.eqb_spec width 0); [lia|].
    destruct (wrap_spec w [] (width - Z.of_nat (List.length (@nil N))) S) as [[L _]|(_ & lines & E & _)]; [cbn in L; lia|]. rewrite E. cbn [bind]. rewrite txt_article_eq. cbn zeta. cbn [when_print opt_true bind txt_paragraphs].
    rewrite txt_element by discriminate. cbn zeta. cbn [opt_true when_print]. unfold wrapped_print. destruct (Z.eqb_spec width 0); [lia|].
    match goal with |- context [wrap w ?s (width - ?k)] => destruct (wrap_spec w s (width - k) S) as [[L _]|(_ & lines2 & E2 & _)]; [exfalso; change k with 15 in L; lia|] end.
    rewrite E2. reflexivity.
Qed.
Print Assumptions C50_only_intro_refuted.

(* The plain text of a raw law: its heading and one line for each of its lines, marked if it is bold. *)
Theorem C50_raw : forall indent x o, txt_raw indent x = Ok o ->
  exists rows, o = [(true, heading (lw_identifier x) (lw_subject x))] ++ rows ++ [(true, [])] /\
    Forall2 (fun p l => fst p = true /\ exists n, snd p = indent ++ repeat 32%N n ++ (if l_bold l then u8 "<BOLD> " else u8 "       ") ++ l_content l) rows (lw_body x).
Proof. exact raw_shows. Qed.
Print Assumptions C50_raw.
Example C50_raw_ex : (o <- txt_raw [] (mk_law t_id (mk_date 2012 7 13) (u8 "Tárgy") [mk_line [mk_part (f_of_Z 10) (u8 "1. §") true] f_zero; EMPTY_LINE; mk_line [mk_part (f_of_Z 21) (u8 "Egy.") false] f_zero]) ;; Ok (map snd o))
  = Ok [u8 "==== 2012. évi C. törvény - Tárgy =====" ++ [10%N]; u8 "<BOLD> 1. §"; u8 "       "; u8 "         Egy."; []].
Proof. vm_compute. reflexivity. Qed.
