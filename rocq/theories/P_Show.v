(* C81: what is read from the gazette can be shown. *)
From Coq Require Import Lia Permutation Floats.SpecFloat.
From Verif Require Import PyBase PyBaseFacts IdModel LineModel DateModel RefModel TreeModel TreeSpec TreeProofs StructModel SemModel SemSpec D2oHunSpec FitSpec FitProofs FitProofs2 PegModel PegSpec GazModel PdfModel.
From Verif Require Import CacheModel CacheSpec ExtModel HtmlModel HtmlSpec HtmlProofs3 HtmlProofs6 TxtModel TxtSpec P_Txt PipeModel PipeSpec CliModel CliSpec P_Sem P_Fit IssueSpec IssueProofs P_Issue ShowSpec ShowProofs ShowProofs2.
From Verif Require SemProofs P_Peg P_Struct.
Local Open Scope Z_scope.

(** C81: the number of every structural element that is read can be written as it was in the text. *)
Theorem C81_struct : forall k ls e, struct_parse k ls = Ok e -> exists f, formatted_identifier e = Ok f.
Proof. exact struct_shown. Qed.
Print Assumptions C81_struct.
(* An act can be printed exactly if all that is printed of it fits. *)
Theorem C81_txt : forall w width a, splits w -> 0 < width -> (exists o, txt_act w width [] a = Ok o) <-> act_fits width a.
Proof. intros w width a S W. exact (act_shown w width S W a). Qed.
Print Assumptions C81_txt.
(* An act that is read, in any of the steps, can be printed exactly if no text in it is empty, its quoted lines can be placed
   and no text begins beyond the right margin. *)
Theorem C81_read_txt : forall e x s o name a w width, reads e x s (Ok o) -> document o name (OAct a) -> splits w -> 0 < width ->
  (exists t, txt_act w width [] a = Ok t) <-> roomy width a.
Proof. intros e x s o name a w width R D S W. apply sturdy_text; [exact S|exact W|exact (read_sturdy _ _ _ _ _ _ R D)]. Qed.
Print Assumptions C81_read_txt.
(* And it can be made into a page if no text in it is empty, its quoted lines can be placed, and, where the references have been
   looked for, no text has a range of structural elements. *)
Theorem C81_read_html : forall e x s o name a, reads e x s (Ok o) -> document o name (OAct a) -> viewable a ->
  (s = Full -> e_analyzer e = grammar_analyzer /\ Forall rangeless (readings_of a)) -> exists file, html_file a = Ok file.
Proof.
  intros e x s o name a R D V G.
  assert (A : forall a, reads e x StructureOnly (Ok (OStruct a)) -> fresh_act a /\ sturdy a).
  { intros a' R'. inversion R' as [| |lines F a'' P| | | | |]; subst. split; [exact (parse_act_fresh _ _ _ _ _ P)|exact (parsed_sturdy _ _ _ _ _ P)]. }
  assert (B : forall b, reads e x BaOnly (Ok (OBlock b)) -> fresh_act b /\ sturdy b).
  { intros b R'. inversion R' as [| | | |a' b' RS Bl| | |]; subst. destruct (A a' RS) as [F S]. split; [exact (block_act_fresh _ _ _ F Bl)|exact (amended_sturdy _ _ _ F S Bl)]. }
  inversion D; subst.
  - inversion R as [| | | | | |b c RB S|]; subst. destruct (B b RB) as [F Sb]. destruct (G eq_refl) as [An Ra]. rewrite An in S. exact (finished_page b a F Sb Ra V S).
  - inversion R; subst; destruct (A a R) as [F S]; exact (fresh_page a F S V).
  - inversion R; subst; destruct (B a R) as [F S]; exact (fresh_page a F S V).
Qed.
Print Assumptions C81_read_html.
Lemma served_reads net miner fixups issues actss c : Forall2 (served net miner fixups) issues actss -> In c (concat actss) ->
  exists x, reads (env_of net miner fixups) x Full (Ok (OAct c)).
Proof.
  intros S I. destruct (served_in _ _ _ c S I) as (i & acts & (b & css & _ & _ & d & pages & laws & _ & _ & L) & J).
  assert (X : exists x, law_of fixups x c).
  { clear I. induction L as [|x c' xs cs X _ IH]; [destruct J|]. destruct J as [->|J]; [exists x; exact X|exact (IH J)]. }
  destruct X as (x & X). exists x. exact (act_read net miner fixups x c X).
Qed.
Lemma served_sturdy net miner fixups issues actss c : Forall2 (served net miner fixups) issues actss -> In c (concat actss) -> sturdy c.
Proof. intros S I. destruct (served_reads _ _ _ _ _ c S I) as (x & R). exact (read_sturdy _ _ _ _ _ c R (doc_act c)). Qed.
(* The program writes the text of each of the acts that are asked for into a file of its own: there the texts of the act stand
   in their order. *)
Theorem C81_txt_files : forall net miner fixups w a dir actss order s, splits (wr_wrapper w) ->
  ar_step a = full -> ar_format a = Txt -> ar_output_dir a = Some dir -> Forall2 (served net miner fixups) (ar_issues a) actss -> Permutation (issues_of a) order ->
  NoDup (map act_identifier (concat actss)) -> can_make (cs_fs s) dir -> Forall (roomy 90) (concat actss) ->
  let target c := path_join dir (act_identifier c ++ u8 ".txt") in
  (forall c, In c (concat actss) -> ~ In 47%N (act_identifier c) /\ fs_dir (cs_fs s) (target c) = false) ->
  exists fuel s', run (env_of net miner fixups) w a fuel order s = Some (s', None) /\ cs_stdout s' = cs_stdout s /\
    (forall c, In c (concat actss) -> asked a (act_identifier c) -> exists t, fs_file (cs_fs s') (target c) = Some t /\ in_order (map no_space (act_texts c)) (no_space t)) /\
    (forall p, (forall c, In c (concat actss) -> asked a (act_identifier c) -> p <> target c) -> fs_file (cs_fs s') p = fs_file (cs_fs s) p).
Proof.
  intros net miner fixups w a dir actss order s Sp St Fm Di Se Pe Nd Cm Ro target Ok'.
  assert (K : forall c, In c (concat actss) -> exists o, txt_act (wr_wrapper w) 90 [] c = Ok o).
  { intros c I. rewrite Forall_forall in Ro. apply (sturdy_text (wr_wrapper w) 90 c Sp eq_refl (served_sturdy _ _ _ _ _ c Se I)). exact (Ro c I). }
  pose (text c := match txt_act (wr_wrapper w) 90 [] c with Ok o => printed true o | Err _ => [] end).
  assert (Q : forall c, In c (concat actss) -> output_fn w (ar_format a) (OAct c) = Ok (text c, []) /\ in_order (map no_space (act_texts c)) (no_space (text c))).
  { intros c I. destruct (K c I) as (o & E). rewrite Fm. unfold output_fn, txt_output, text. rewrite E. cbn [bind]. destruct (C50_in_order (wr_wrapper w) 90 c o Sp ltac:(discriminate) E) as [P O]. rewrite P. split; [reflexivity|exact O]. }
  pose proof (files_any net miner fixups w a dir actss order s text (fun _ => []) Sp St Di Se Pe Nd Cm (fun c I => proj1 (Q c I))) as F. cbv zeta in F. rewrite Fm in F.
  destruct (F Ok') as (fuel & s' & R & O & T & Ot). exists fuel, s'. split; [exact R|]. split; [exact O|]. split; [|exact Ot].
  intros c I As. exists (text c). split; [exact (T c I As)|exact (proj2 (Q c I))].
Qed.
Print Assumptions C81_txt_files.
(* Or the page of each: there the identifier and the texts of the act stand. *)
Theorem C81_html_files : forall net miner fixups w a dir actss order s, splits (wr_wrapper w) ->
  ar_step a = full -> ar_format a = Html -> ar_output_dir a = Some dir -> Forall2 (served net miner fixups) (ar_issues a) actss -> Permutation (issues_of a) order ->
  NoDup (map act_identifier (concat actss)) -> can_make (cs_fs s) dir -> Forall (fun c => viewable c /\ Forall rangeless (readings_of c)) (concat actss) ->
  let target c := path_join dir (act_identifier c ++ u8 ".html") in
  (forall c, In c (concat actss) -> ~ In 47%N (act_identifier c) /\ fs_dir (cs_fs s) (target c) = false) ->
  exists fuel s', run (env_of net miner fixups) w a fuel order s = Some (s', None) /\ cs_stdout s' = cs_stdout s /\
    (forall c, In c (concat actss) -> asked a (act_identifier c) -> exists t, fs_file (cs_fs s') (target c) = Some t /\
       no_space (HtmlSpec.shown t) = no_space (concat (act_identifier c :: act_strings c))) /\
    (forall p, (forall c, In c (concat actss) -> asked a (act_identifier c) -> p <> target c) -> fs_file (cs_fs s') p = fs_file (cs_fs s) p).
Proof.
  intros net miner fixups w a dir actss order s Sp St Fm Di Se Pe Nd Cm Ro target Ok'.
  assert (K : forall c, In c (concat actss) -> exists t, html_file c = Ok t).
  { intros c I. rewrite Forall_forall in Ro. destruct (Ro c I) as [V Ra]. destruct (served_reads _ _ _ _ _ c Se I) as (x & R). apply (C81_read_html _ x Full (OAct c) (act_identifier c) c R (doc_act c) V). intros _. split; [reflexivity|exact Ra]. }
  pose (text c := match html_file c with Ok t => t | Err _ => [] end).
  assert (Q : forall c, In c (concat actss) -> output_fn w (ar_format a) (OAct c) = Ok (text c, []) /\ no_space (HtmlSpec.shown (text c)) = no_space (concat (act_identifier c :: act_strings c))).
  { intros c I. destruct (K c I) as (t & E). rewrite Fm. unfold output_fn, text. rewrite E. cbn [bind]. split; [reflexivity|exact (HtmlProofs3.file_shows c t E)]. }
  pose proof (files_any net miner fixups w a dir actss order s text (fun _ => []) Sp St Di Se Pe Nd Cm (fun c I => proj1 (Q c I))) as F. cbv zeta in F. rewrite Fm in F.
  destruct (F Ok') as (fuel & s' & R & O & T & Ot). exists fuel, s'. split; [exact R|]. split; [exact O|]. split; [|exact Ot].
  intros c I As. exists (text c). split; [exact (T c I As)|exact (proj2 (Q c I))].
Qed.
Print Assumptions C81_html_files.

(** Examples *)
(* all that is in an act, one after the other *)
Fixpoint all_sae (s : sae) : list child :=
  match s with mk_sae _ _ _ _ cs _ _ => match cs with Some l => flat_map all_child l | None => [] end end
with all_child (c : child) : list child := c :: match c with ChSae s => all_sae s | ChArticle a => all_article a | _ => [] end
with all_article (a : article) : list child := match a with mk_article _ _ ps => flat_map (fun p => ChSae p :: all_sae p) ps end.
Definition all_act (a : act) : list child := flat_map (fun x => match x with AArticle x => ChArticle x :: all_article x | AStruct _ => [] end) (act_children a).
Lemma all_inside : (forall c s, inside_sae c s -> In c (all_sae s)) /\ (forall c d, inside_child_of c d -> In c (all_child d)) /\ (forall c a, inside_article c a -> In c (all_article a)).
Proof.
  apply inside_mutind; intros.
  - destruct s. cbn in e |- *. subst. apply in_flat_map. exists c. split; [assumption|destruct c; left; reflexivity].
  - destruct s. cbn in e |- *. subst. apply in_flat_map. exists d. split; assumption.
  - right. assumption.
  - right. assumption.
  - destruct a. apply in_flat_map. exists p. split; [assumption|left; reflexivity].
  - destruct a. apply in_flat_map. exists p. split; [assumption|right; assumption].
Qed.
Lemma all_in_act a c : in_act a c -> In c (all_act a).
Proof. intros (x & I & H). apply in_flat_map. exists (AArticle x). split; [exact I|]. destruct H as [->|H]; [left; reflexivity|right; apply all_inside; exact H]. Qed.
Definition viewable_now (a : act) : bool :=
  forallb (fun c => match c with
    | ChSae s => match s_text s, s_children s with Some [], None => false | _, _ => true end
    | ChQuoted ls => existsb not_empty_line ls &&
        forallb (fun l => forallb (fun m => match f_int (f_mul (f_sub (l_indent l) (l_indent m)) (f_of_Z 2)) with Ok _ => true | _ => false end) ls) ls
    | _ => true end) (all_act a).
Lemma viewable_ok a : viewable_now a = true -> viewable a.
Proof.
  unfold viewable_now. rewrite forallb_forall. intros H. split.
  - intros s I E. specialize (H _ (all_in_act _ _ I)). cbn in H. rewrite E in H. destruct (s_children s); [discriminate|discriminate].
  - intros ls I. specialize (H _ (all_in_act _ _ I)). cbn in H. apply andb_true_iff in H as [H1 H2]. apply existsb_exists in H1. split; [exact H1|].
    intros l m L M. rewrite forallb_forall in H2. specialize (H2 l L). rewrite forallb_forall in H2. specialize (H2 m M). unfold at_distance. destruct f_int as [z|]; [exists z; reflexivity|discriminate].
Qed.
Definition rangeless_now (rd : reading) : bool :=
  match rd_text rd with
  | Some s => match fix_list_element_end s (match rd_after rd with [] => true | _ => false end) with Ok t => negb (P_Peg.dashes 0 (rd_before rd ++ t ++ rd_after rd)) | Err _ => false end
  | None => true
  end.
Lemma rangeless_ok rd : rangeless_now rd = true -> rangeless rd.
Proof.
  destruct rd as [[s|] p q]; [|intros _; exact Logic.I]. unfold rangeless_now, rangeless. cbn [rd_text rd_before rd_after]. destruct (fix_list_element_end s _) as [t|] eqn:E; [|discriminate].
  intros H t' I _. apply SemProofs.fix_end_spec in I. assert (t' = t) as -> by congruence. apply P_Peg.dashes_ok. now apply negb_true_iff in H.
Qed.

(* a law in chapters, with points, an amendment, a block that is quoted, and the date when it enters into force *)
Definition c81_lines := map (fun '(n, s) => P_Struct.text_line n s)
  [(20, u8 "I. FEJEZET"); (20, u8 "ALAPVETŐ RENDELKEZÉSEK"); (0, []);
   (20, u8 "1. § (1) Ki kell tenni, ha"); (30, u8 "a) kell,"); (30, u8 "b) lehet.");
   (20, u8 "(2) A 2013. évi V. törvény 3. § (2) bekezdése helyébe a következő rendelkezés lép:"); (30, u8 "„(2) A bíróság dönt.”");
   (0, []); (20, u8 "II. FEJEZET"); (20, u8 "ZÁRÓ RENDELKEZÉSEK"); (0, []);
   (20, u8 "2. § A felirat:"); (30, u8 "„Belépni tilos!”"); (20, u8 "3. § Ez a törvény a kihirdetését követő 8. napon lép hatályba.")].
Definition c81_law := mk_law (u8 "2020. évi I. törvény") (mk_date 2020 1 1) (u8 "a példáról") c81_lines.
Definition c81_results : res (act * act * act) :=
  a <- parse_act (lw_identifier c81_law) (lw_date c81_law) (lw_subject c81_law) c81_lines ;; b <- block_parse_act grammar_analyzer a ;;
  c <- add_semantics_to_act grammar_analyzer b ;; Ok (a, b, c).
Lemma c81_reads lines a b c : (a <- parse_act (lw_identifier c81_law) (lw_date c81_law) (lw_subject c81_law) lines ;; b <- block_parse_act grammar_analyzer a ;;
    c <- add_semantics_to_act grammar_analyzer b ;; Ok (a, b, c)) = Ok (a, b, c) ->
  reads c73_env (mk_law (lw_identifier c81_law) (lw_date c81_law) (lw_subject c81_law) lines) Full (Ok (OAct c)).
Proof.
  intros E. apply bind_ok in E as (a' & E1 & E). apply bind_ok in E as (b' & E2 & E). apply bind_ok in E as (c' & E3 & E). injection E as -> -> ->.
  apply (rd_full _ _ b c); [|exact E3]. apply (rd_block _ _ a b); [|exact E2]. apply (rd_structure _ _ lines); [reflexivity|exact E1].
Qed.
Example C81_ex : exists c o file, reads c73_env c81_law Full (Ok (OAct c)) /\ roomy 90 c /\ ~ roomy 15 c /\ viewable c /\ Forall rangeless (readings_of c) /\
  txt_act c50_wrapper 90 [] c = Ok o /\ html_file c = Ok file /\ map snd o = [
    u8 "==== 2020. évi I. törvény - a példáról =====" ++ [10%N];
    u8 "I. FEJEZET"; u8 "ALAPVETŐ RENDELKEZÉSEK"; [];
    u8 "1. §      (1)  Ki kell tenni, ha"; u8 "               a)   kell,"; u8 "               b)   lehet.";
    u8 "          (2)  A 2013. évi V. törvény 3. § (2) bekezdése helyébe a következő rendelkezés"; u8 "               lép:";
    u8 "               „"; u8 "                    (2)  A bíróság dönt."; u8 "               ”"; [];
    u8 "II. FEJEZET"; u8 "ZÁRÓ RENDELKEZÉSEK"; [];
    u8 "2. §           A felirat:"; u8 "               „"; u8 "                    Belépni tilos!"; u8 "               ”"; [];
    u8 "3. §           Ez a törvény a kihirdetését követő 8. napon lép hatályba."; []].
Proof.
  destruct c81_results as [[[a b] c]|] eqn:E; [|vm_compute in E; discriminate]. pose proof (c81_reads c81_lines a b c E) as R.
  assert (V : viewable_now c = true) by (vm_compute in E; injection E as <- <- <-; vm_compute; reflexivity). apply viewable_ok in V.
  assert (G : Forall rangeless (readings_of c)). { eapply Forall_impl; [exact rangeless_ok|]. apply Forall_forall. apply forallb_forall. vm_compute in E. injection E as <- <- <-. vm_compute. reflexivity. }
  destruct (C81_read_html c73_env c81_law Full (OAct c) (act_identifier c) c R (doc_act c) V (fun _ => conj eq_refl G)) as (file & H).
  pose proof (fun width W => C81_read_txt c73_env c81_law Full (OAct c) (act_identifier c) c c50_wrapper width R (doc_act c) c50_splits W) as T.
  destruct (txt_act c50_wrapper 90 [] c) as [o|] eqn:O; [|exfalso; vm_compute in E; injection E as <- <- <-; vm_compute in O; discriminate].
  exists c, o, file. split; [exact R|]. split; [apply (T 90 eq_refl); exists o; exact O|]. split.
  { intros N. apply (T 15 eq_refl) in N as (o' & N). clear - E N. vm_compute in E. injection E as <- <- <-. vm_compute in N. discriminate. }
  split; [exact V|]. split; [exact G|]. split; [exact O|]. split; [exact H|]. clear - E O. vm_compute in E. injection E as <- <- <-. vm_compute in O. injection O as <-. vm_compute. reflexivity.
Qed.
(* the files of the act of C76_ex *)
Lemma c81_roomy : roomy 90 c76_act.
Proof.
  destruct (served_reads c76_net c76_miner [] [(2020, 1)] [[c76_act]] c76_act) as (x & R); [constructor; [exact c76_served|constructor]|left; reflexivity|].
  apply (C81_read_txt _ x Full (OAct c76_act) (act_identifier c76_act) c76_act c50_wrapper 90 R (doc_act _) c50_splits eq_refl). eexists. vm_compute. reflexivity.
Qed.
Example C81_files_ex :
  (exists fuel s' t, run (env_of c76_net c76_miner []) c76_writers (mk_args Txt [(2020, 1)] (Some (u8 "out")) None full 4) fuel [ODownload 2020 1] c76_start = Some (s', None) /\
     fs_file (cs_fs s') (u8 "out/2020. évi I. törvény.txt") = Some t /\ in_order (map no_space (act_texts c76_act)) (no_space t)) /\
  (exists fuel s' t, run (env_of c76_net c76_miner []) c76_writers (mk_args Html [(2020, 1)] (Some (u8 "out")) None full 4) fuel [ODownload 2020 1] c76_start = Some (s', None) /\
     fs_file (cs_fs s') (u8 "out/2020. évi I. törvény.html") = Some t /\ no_space (HtmlSpec.shown t) = no_space (concat (act_identifier c76_act :: act_strings c76_act))).
Proof.
  assert (Nd : NoDup (map act_identifier (concat [[c76_act]]))) by (cbn; repeat constructor; intros []).
  assert (Se : Forall2 (served c76_net c76_miner []) [(2020, 1)] [[c76_act]]) by (constructor; [exact c76_served|constructor]).
  assert (Cm : can_make (cs_fs c76_start) (u8 "out")) by (split; [discriminate|]; repeat constructor).
  assert (Na : ~ In 47%N (act_identifier c76_act)) by (intros I; vm_compute in I; repeat (destruct I as [I|I]; [discriminate|]); destruct I).
  split.
  - destruct (C81_txt_files c76_net c76_miner [] c76_writers (mk_args Txt [(2020, 1)] (Some (u8 "out")) None full 4) (u8 "out") [[c76_act]] [ODownload 2020 1] c76_start) as (fuel & s' & R & O & F & K);
      [exact c50_splits|reflexivity|reflexivity|reflexivity|exact Se|apply Permutation_refl|exact Nd|exact Cm|constructor; [exact c81_roomy|constructor]|intros c [<-|[]]; split; [exact Na|reflexivity]|].
    destruct (F c76_act (or_introl eq_refl)) as (t & T & H); [right; right; discriminate|]. exists fuel, s', t. auto.
  - destruct (C81_html_files c76_net c76_miner [] c76_writers (mk_args Html [(2020, 1)] (Some (u8 "out")) None full 4) (u8 "out") [[c76_act]] [ODownload 2020 1] c76_start) as (fuel & s' & R & O & F & K);
      [exact c50_splits|reflexivity|reflexivity|reflexivity|exact Se|apply Permutation_refl|exact Nd|exact Cm| |intros c [<-|[]]; split; [exact Na|reflexivity]|].
    + constructor; [|constructor]. split; [apply viewable_ok; vm_compute; reflexivity|]. eapply Forall_impl; [exact rangeless_ok|]. apply Forall_forall. apply forallb_forall. vm_compute. reflexivity.
    + destruct (F c76_act (or_introl eq_refl)) as (t & T & H); [right; right; discriminate|]. exists fuel, s', t. auto.
Qed.
(* A law that quotes an empty line only is read, but it can neither be printed nor made into a page. *)
Theorem C81_quote_refuted : exists e x a, reads e x Full (Ok (OAct a)) /\ html_file a = Err ValueError /\
  forall w width, splits w -> 0 < width -> ~ exists t, txt_act w width [] a = Ok t.
Proof.
  pose (lines := map (fun '(n, s) => P_Struct.text_line n s) [(20, u8 "1. § A felirat:"); (30, u8 "„”")]).
  destruct (a <- parse_act (lw_identifier c81_law) (lw_date c81_law) (lw_subject c81_law) lines ;; b <- block_parse_act grammar_analyzer a ;; c <- add_semantics_to_act grammar_analyzer b ;; Ok (a, b, c)) as [[[a b] c]|] eqn:E;
    [|vm_compute in E; discriminate]. pose proof (c81_reads lines a b c E) as R. exists c73_env, (mk_law (lw_identifier c81_law) (lw_date c81_law) (lw_subject c81_law) lines), c. split; [exact R|].
  assert (Q : exists x p, In (AArticle x) (act_children c) /\ In p (a_paragraphs x) /\ s_text p = None /\ s_children p = Some [ChQuoted [EMPTY_LINE]]) by (clear R; vm_compute in E; injection E as <- <- <-; eexists; eexists; split; [left; reflexivity|]; split; [left; reflexivity|]; split; reflexivity).
  split; [clear Q R; vm_compute in E; injection E as <- <- <-; vm_compute; reflexivity|]. intros w width S W N. apply (C81_read_txt _ _ _ _ _ c w width R (doc_act c) S W) in N. clear E R.
  destruct Q as (x & p & I & J & T & C). specialize (N (AArticle x) (article_width x + (label_width p + 0))%nat (ChQuoted [EMPTY_LINE]) I).
  assert (M : quote_fits [EMPTY_LINE]); [apply N|destruct M as (base & M & _); discriminate]. cbn [act_child_child]. apply (pr_paragraph _ p); [exact J|]. eapply pr_child; [intros [_ H]; rewrite T in H; exact (H eq_refl)|exact C|left; reflexivity|apply pr_self].
Qed.
Print Assumptions C81_quote_refuted.
(* Nor can one that amends with an empty paragraph. *)
Theorem C81_empty_refuted : exists e x a, reads e x Full (Ok (OAct a)) /\ html_file a = Err TypeError /\
  forall w width, splits w -> 0 < width -> ~ exists t, txt_act w width [] a = Ok t.
Proof.
  pose (lines := map (fun '(n, s) => P_Struct.text_line n s) [(20, u8 "1. § A 2013. évi V. törvény 3. § (2) bekezdése helyébe a következő rendelkezés lép:"); (30, u8 "„(2) ”")]).
  destruct (a <- parse_act (lw_identifier c81_law) (lw_date c81_law) (lw_subject c81_law) lines ;; b <- block_parse_act grammar_analyzer a ;; c <- add_semantics_to_act grammar_analyzer b ;; Ok (a, b, c)) as [[[a b] c]|] eqn:E;
    [|vm_compute in E; discriminate]. pose proof (c81_reads lines a b c E) as R. exists c73_env, (mk_law (lw_identifier c81_law) (lw_date c81_law) (lw_subject c81_law) lines), c. split; [exact R|].
  assert (Q : exists x p q s, In (AArticle x) (act_children c) /\ In p (a_paragraphs x) /\ s_text p = None /\ s_children p = Some [ChSae q] /\ s_text q = None /\ s_children q = Some [ChSae s] /\ s_text s = Some [] /\ s_children s = None)
    by (clear R; vm_compute in E; injection E as <- <- <-; do 4 eexists; split; [left; reflexivity|]; split; [left; reflexivity|]; repeat (split; [reflexivity|]); reflexivity).
  split; [clear Q R; vm_compute in E; injection E as <- <- <-; vm_compute; reflexivity|]. intros w width S W N. apply (C81_read_txt _ _ _ _ _ c w width R (doc_act c) S W) in N. clear E R.
  destruct Q as (x & p & q & s & I & J & T & C & T2 & C2 & T3 & C3). specialize (N (AArticle x) (article_width x + (label_width p + (label_width q + 0)))%nat (ChSae s) I).
  assert (M : no_empty_text s); [apply N|exact (M T3 C3)]. cbn [act_child_child]. apply (pr_paragraph _ p); [exact J|]. eapply pr_child; [intros [_ H]; rewrite T in H; exact (H eq_refl)|exact C|left; reflexivity|].
  eapply pr_child; [intros [_ H]; rewrite T2 in H; exact (H eq_refl)|exact C2|left; reflexivity|apply pr_self].
Qed.
Print Assumptions C81_empty_refuted.
