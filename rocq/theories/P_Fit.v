(* C73: what the parsers return is fit for what is done with it. *)
From Coq Require Import Lia Floats.SpecFloat.
From Verif Require Import PyBase PyBaseFacts IdModel IdSpec LineModel DateModel RefModel RefSpec TreeModel TreeSpec TreeProofs StructModel StructSpec StructProofs StructProofs3 SemModel SemSpec SemProofs FixupModel HtmlModel HtmlSpec HtmlProofs5
  D2oModel D2oSpec D2oHun D2oHunSpec GazModel GramModel GramSpec PegModel PegSpec PipeModel PipeSpec FitSpec FitProofs FitProofs2 FitProofs3 FitProofs4 P_Struct P_Sem P_Html P_Tree P_D2o P_Gaz P_Pipe P_Peg.
Local Open Scope Z_scope.

(** C73: every act that the structural parser returns was made by the constructors, has paragraphs as the children of all
    articles, no semantic data, and a text or children in every element; block amendments keep it so. *)
Theorem C73_structure : forall i d s ls a, parse_act i d s ls = Ok a -> fresh_act a.
Proof. exact parse_act_fresh. Qed.
Print Assumptions C73_structure.
Theorem C73_blocks : forall an a b, fresh_act a -> block_parse_act an a = Ok b -> fresh_act b.
Proof. exact block_act_fresh. Qed.
Print Assumptions C73_blocks.
(* So it is ready for semantic parsing, and the grammar always finishes if it can decide what the texts say. *)
Theorem C73_ready : forall a, fresh_act a -> Forall clear (readings_of a) -> exists c, add_semantics_to_act grammar_analyzer a = Ok c.
Proof. intros a F R. destruct (fresh_ready a F) as (B & U & C). exact (C65_act a B U C R). Qed.
Print Assumptions C73_ready.

(** All dates are dates: those that any grammar finds ... *)
Theorem C73_dates : forall parse, real_dates (analyzer_of parse).
Proof. exact analyzer_dates. Qed.
Print Assumptions C73_dates.
(* ... and those of the laws in a gazette. *)
Theorem C73_gazette : forall pages laws, gazette_laws pages laws -> Forall (fun x => real_date (lw_date x)) laws.
Proof. exact gazette_dates. Qed.
Print Assumptions C73_gazette.

(** So every law that can be read can be written as JSON and read back. *)
Lemma reads_acts e x c : reads e x Full (Ok (OAct c)) -> exists lines a b, do_all_fixups (e_fixups e) (lw_identifier x) (lw_body x) = Ok lines /\
  parse_act (lw_identifier x) (lw_date x) (lw_subject x) lines = Ok a /\ block_parse_act (e_analyzer e) a = Ok b /\ add_semantics_to_act (e_analyzer e) b = Ok c.
Proof.
  intros R. inversion R as [| | | | | |b c' RB S|]; subst. inversion RB as [| | | |a b' RS B| | |]; subst. inversion RS as [| |lines F a' P| | | | |]; subst. exists lines, a, b. auto.
Qed.
Theorem C73_written : forall e x c lines, reads e x Full (Ok (OAct c)) -> real_dates (e_analyzer e) -> real_date (lw_date x) ->
  do_all_fixups (e_fixups e) (lw_identifier x) (lw_body x) = Ok lines -> Forall measured lines ->
  exists d v, to_dict hun_table (act_value c) (TClass (u8 "Act")) = Ok d /\ plain d /\
    to_object hun_table d (TClass (u8 "Act")) = Ok v /\ py_eq hun_table (act_value c) v = true.
Proof.
  intros e x c lines R D1 D2 L M. destruct (reads_acts e x c R) as (ls & a & b & L' & P & B & S). assert (ls = lines) as -> by congruence.
  pose proof (parse_act_fresh _ _ _ _ _ P) as F. assert (N : Forall partly_measured lines) by (eapply Forall_impl; [|exact M]; intros l; apply measured_partly).
  destruct (block_act_lines partly_measured partly_slice _ a b F (parse_act_lines partly_measured partly_slice _ _ _ _ _ N P) B) as [Fb Lb].
  apply C42_act.
  - apply (finished_writable (e_analyzer e) b c Fb); [|exact D1|exact S]. 
    replace (act_publication_date b) with (lw_date x); [exact D2|]. assert (RB : reads e x BaOnly (Ok (OBlock b))) by (eapply rd_block; [eapply rd_structure; eauto|exact B]).
    pose proof (C60_named _ _ _ _ RB) as (_ & _ & E). now symmetry.
  - intros l I. apply partly_numbers, Lb. exact (finished_lines _ b c S l I).
Qed.
Print Assumptions C73_written.
(* all the laws of a gazette, with the grammar of the program *)
Theorem C73_all_written : forall e pages laws x c lines, gazette_laws pages laws -> In x laws -> e_analyzer e = grammar_analyzer ->
  reads e x Full (Ok (OAct c)) -> do_all_fixups (e_fixups e) (lw_identifier x) (lw_body x) = Ok lines -> Forall measured lines ->
  exists d v, to_dict hun_table (act_value c) (TClass (u8 "Act")) = Ok d /\ plain d /\
    to_object hun_table d (TClass (u8 "Act")) = Ok v /\ py_eq hun_table (act_value c) v = true.
Proof.
  intros e pages laws x c lines G I A R L M. pose proof (gazette_dates _ _ G) as D. rewrite Forall_forall in D.
  apply (C73_written e x c lines R); auto. rewrite A. apply analyzer_dates.
Qed.
Print Assumptions C73_all_written.

(** Elements in an article have different identifiers, all of which ids can hold.  The numbers of articles are not
    checked (C29_articles_refuted); if they differ, all places are found and all ids are different. *)
Theorem C73_identified : forall e x c lines, reads e x Full (Ok (OAct c)) ->
  do_all_fixups (e_fixups e) (lw_identifier x) (lw_body x) = Ok lines -> Forall fine lines ->
  Forall distinct_article (act_articles c) /\ safe_ids c /\
  (NoDup (map a_identifier (act_articles c)) -> distinct_act c /\ unique_identifiers c).
Proof.
  intros e x c lines R L M. destruct (reads_acts e x c R) as (ls & a & b & L' & P & B & S). assert (ls = lines) as -> by congruence.
  pose proof (parse_act_fresh _ _ _ _ _ P) as F. pose proof (parse_act_identified _ _ _ _ _ M P) as I.
  destruct (kept_identified a b (block_act_kept _ a b F B) I) as (Ib & _ & _). pose proof (block_act_fresh _ _ _ F B) as Fb.
  destruct (kept_identified b c (semantic_act_kept _ b c Fb S) Ib) as ((O & Sa) & _ & _). split; [|split; [exact Sa|]].
  - eapply Forall_impl; [|exact O]. intros y [N' Q]. split; [exact N'|]. eapply Forall_impl; [|exact Q]. intros p (D1 & D2 & _). auto.
  - intros N. exact (ok_distinct c N O).
Qed.
Print Assumptions C73_identified.
Theorem C73_found : forall e x c lines, reads e x Full (Ok (OAct c)) ->
  do_all_fixups (e_fixups e) (lw_identifier x) (lw_body x) = Ok lines -> Forall fine lines -> NoDup (map a_identifier (act_articles c)) ->
  (forall r s, located c r s -> act_at_reference c r = Ok [s]) /\
  (forall tree, html_tree c = Ok tree -> NoDup (labelled_ids tree)).
Proof.
  intros e x c lines R L M N. destruct (C73_identified e x c lines R L M) as (_ & S & D). destruct (D N) as [D1 D2].
  assert (B : built_act c).
  { destruct (reads_acts e x c R) as (ls & a & b & _ & P & B & Sc). pose proof (block_act_fresh _ _ _ (parse_act_fresh _ _ _ _ _ P) B) as [Bb _ _ _].
    apply (bare_built_act b c); [|exact Bb]. exact (C36_only_adds _ _ _ Sc). }
  split.
  - intros r s Lc. exact (C26_finds c r s B D2 Lc).
  - intros tree T. exact (C49_unique c tree B D1 S T).
Qed.
Print Assumptions C73_found.

(* A law that has points, quotes a block that is read as an amendment and one that is not, and says when it enters into force *)
Definition c73_lines := map (fun '(n, s) => text_line n s)
  [(20, u8 "1. § (1) Ki kell tenni, ha"); (30, u8 "a) kell,"); (30, u8 "b) lehet.");
   (20, u8 "(2) A 2013. évi V. törvény 3. § (2) bekezdése helyébe a következő rendelkezés lép:"); (30, u8 "„(2) A bíróság dönt.”");
   (20, u8 "2/A. § A felirat:"); (30, u8 "„Belépni tilos!”"); (20, u8 "3. § Ez a törvény 2020. február 15-én lép hatályba.")].
Definition c73_law := mk_law (u8 "2020. évi I. törvény") (mk_date 2020 1 1) (u8 "a példáról") c73_lines.
Definition c73_env : env := mk_env (fun _ _ => mk_gen [] None) (fun _ => mk_gen [] None) [] grammar_analyzer.
Definition c73_results : res (act * act * act) :=
  a <- parse_act (lw_identifier c73_law) (lw_date c73_law) (lw_subject c73_law) c73_lines ;; b <- block_parse_act grammar_analyzer a ;;
  c <- add_semantics_to_act grammar_analyzer b ;; Ok (a, b, c).
Lemma c73_reads a b c : c73_results = Ok (a, b, c) -> reads c73_env c73_law Full (Ok (OAct c)).
Proof.
  unfold c73_results. intros E. apply bind_ok in E as (a' & E1 & E). apply bind_ok in E as (b' & E2 & E). apply bind_ok in E as (c' & E3 & E). injection E as -> -> ->.
  apply (rd_full _ _ b c); [|exact E3]. apply (rd_block _ _ a b); [|exact E2]. apply (rd_structure _ _ c73_lines); [reflexivity|exact E1].
Qed.
Lemma char_measured n s : Z.abs n <= 1000000 -> Z.of_nat (length s) <= 1000000 -> measured (text_line n s).
Proof.
  intros N L. assert (P : 2 ^ 300 = 1000000000 * (2 ^ 300 / 1000000000) + 2 ^ 300 mod 1000000000) by (apply Z.div_mod; discriminate).
  assert (Q : 1000000000 < 2 ^ 300) by reflexivity. split; [exact Logic.I|]. destruct s as [|c s]; [split; [constructor|reflexivity]|]. cbn [text_line l_parts]. split.
  - constructor; [apply f_of_Z_finite; lia|]. apply Forall_map, Forall_forall. intros x _. exact Logic.I.
  - cbn [length] in *. rewrite map_length. lia.
Qed.
Lemma c73_measured : Forall measured c73_lines.
Proof. unfold c73_lines. repeat (constructor; [apply char_measured; vm_compute; discriminate|]). constructor. Qed.
Example C73_ex : Forall measured c73_lines /\ Forall fine c73_lines /\ real_dates (e_analyzer c73_env) /\ real_date (lw_date c73_law) /\
  exists a b c, c73_results = Ok (a, b, c) /\ reads c73_env c73_law Full (Ok (OAct c)) /\
    NoDup (map a_identifier (act_articles c)) /\
    map (fun x => map (fun p => (s_identifier p, option_map (map TreeModel.class_of) (s_children p), flat_map dates_of (match m_semantic (s_meta p) with Some l => l | None => [] end))) (a_paragraphs x)) (act_articles c) =
      [[(Some (u8 "1"), Some [TSae KAlphabeticPoint; TSae KAlphabeticPoint], []); (Some (u8 "2"), Some [TSae KBlockAmendmentContainer], [])];
       [(None, Some [TQuoted], [])]; [(None, None, [mk_date 2020 2 15])]].
Proof.
  split; [exact c73_measured|]. split; [unfold c73_lines; fine_lines|]. split; [apply C73_dates|]. split; [vm_compute; repeat split; discriminate|].
  destruct c73_results as [[[a b] c]|] eqn:E; [|vm_compute in E; discriminate]. exists a, b, c. split; [reflexivity|]. split; [exact (c73_reads _ _ _ E)|].
  vm_compute in E. injection E as <- <- <-. split; [repeat constructor; cbn; intuition discriminate|vm_compute; reflexivity].
Qed.
Example C73_ready_ex : exists a b, parse_act (lw_identifier c73_law) (lw_date c73_law) (lw_subject c73_law) (firstn 7 c73_lines) = Ok a /\
  block_parse_act grammar_analyzer a = Ok b /\ fresh_act a /\ fresh_act b /\ a <> b /\ Forall clear (readings_of b) /\ length (readings_of b) = 5%nat.
Proof.
  destruct (parse_act (lw_identifier c73_law) (lw_date c73_law) (lw_subject c73_law) (firstn 7 c73_lines)) as [a|] eqn:E; [|vm_compute in E; discriminate].
  destruct (block_parse_act grammar_analyzer a) as [b|] eqn:E2; [|vm_compute in E; injection E as <-; vm_compute in E2; discriminate].
  exists a, b. split; [reflexivity|]. split; [exact E2|]. pose proof (C73_structure _ _ _ _ _ E) as F. split; [exact F|]. split; [exact (C73_blocks _ _ _ F E2)|].
  clear F. vm_compute in E. injection E as <-. vm_compute in E2. injection E2 as <-. split; [intros E; vm_compute in E; discriminate|]. split; [|vm_compute; reflexivity].
  assert (G : forall s p q t, fix_list_element_end s (match q with [] => true | _ => false end) = Ok t -> unsuspected (p ++ t ++ q) -> clear (mk_reading (Some s) p q)).
  { intros s p q t H N. exists t. split; [now apply fix_end_spec|]. intros _. exact N. }
  repeat (apply Forall_cons; [eapply G; [vm_compute; reflexivity|unsuspect]|]). apply Forall_nil.
Qed.
Definition c73_pages : list page := [nth 0 c60_pages []; [text_line 20 (u8 "2011. június 28."); EMPTY_LINE; text_line 20 (u8 "II. Törvények"); EMPTY_LINE] ++ c60_law (u8 "2011. évi CV. törvény")].
Example C73_gazette_ex : exists x, gazette_laws c73_pages [x] /\ lw_date x = mk_date 2011 6 28.
Proof.
  destruct (header_extractor c73_pages) as [[|k []] []] eqn:E; try (vm_compute in E; discriminate). destruct (section_extractor k) as [[|s []] []] eqn:E2; try (vm_compute in E; injection E as <-; vm_compute in E2; discriminate).
  destruct (law_extractor s) as [[|x []] []] eqn:E3; try (vm_compute in E; injection E as <-; vm_compute in E2; injection E2 as <-; vm_compute in E3; discriminate).
  exists x. split; [|vm_compute in E; injection E as <-; vm_compute in E2; injection E2 as <-; vm_compute in E3; injection E3 as <-; reflexivity].
  change [x] with (concat [[x]]). eapply gl_laws; [exact E|exact E2|]. constructor; [exact E3|constructor].
Qed.

(** Fresh acts need not get their semantic data: an element without a text is read too, and it stops semantic parsing. *)
Theorem C73_empty_refuted : exists lines a b, Forall fine lines /\ Forall measured lines /\
  parse_act (lw_identifier c73_law) (lw_date c73_law) (lw_subject c73_law) lines = Ok a /\ block_parse_act grammar_analyzer a = Ok b /\
  fresh_act b /\ add_semantics_to_act grammar_analyzer b = Err IndexError.
Proof.
  exists (map (text_line 20) [u8 "1. § (1) Egy."; u8 "(2) "]).
  destruct (parse_act (lw_identifier c73_law) (lw_date c73_law) (lw_subject c73_law) (map (text_line 20) [u8 "1. § (1) Egy."; u8 "(2) "])) as [a|] eqn:E; [|vm_compute in E; discriminate].
  destruct (block_parse_act grammar_analyzer a) as [b|] eqn:E2; [|vm_compute in E; injection E as <-; vm_compute in E2; discriminate].
  exists a, b. split; [fine_lines|]. split; [repeat (constructor; [apply char_measured; vm_compute; discriminate|]); constructor|].
  split; [reflexivity|]. split; [exact E2|]. split; [exact (C73_blocks _ _ _ (C73_structure _ _ _ _ _ E) E2)|].
  vm_compute in E. injection E as <-. vm_compute in E2. injection E2 as <-. vm_compute. reflexivity.
Qed.
Print Assumptions C73_empty_refuted.
