(* C48, C49: HTML output. *)
From Coq Require Import Lia.
From Coq Require Import ZifyBool ZifyNat ZifyN.
From Verif Require Import PyBase PyBaseFacts IdModel LineModel DateModel RefModel RefSpec TreeModel TreeSpec TreeProofs StructModel IdProofs P_Tree
  HtmlModel HtmlSpec HtmlProofs HtmlProofs2 HtmlProofs3 HtmlProofs4 HtmlProofs5.
Local Open Scope Z_scope.

(** * C48 *)

(* A text with links is the text: every reference is a link to its target around the characters it
   is about.  Positions that overlap, are negative or hold nothing are rejected. *)
Theorem C48_links : forall attrs text current os,
  (good_positions os /\ exists n, text_with_links attrs text current os = Ok n /\
     inner n = text /\ n_attrs n = attrs /\ n_tail n = [] /\ List.length (n_children n) = List.length os /\
     Forall (fun c => n_tag c = u8 "a" /\ n_children c = [] /\ exists h, n_attrs c = [(u8 "href", h)]) (n_children n) /\
     forall o, In o os -> or_start o <= Z.of_nat (List.length text) ->
       exists c, link_at n (or_start o) c /\ n_attrs c = [(u8 "href", get_href (relative_to (or_reference o) current))] /\
         n_text c = between_positions (or_start o) (or_end o) text) \/
  (~ good_positions os /\ text_with_links attrs text current os = Err AssertionError).
Proof.
  intros attrs text current os. destruct (links_result attrs text current os) as [[G (n & E)]|R]; [left|right; exact R]. split; [exact G|]. exists n. split; [exact E|].
  apply links_text in E as (T & Tl & _ & At & L & F & H). split; [exact T|]. split; [exact At|]. split; [exact Tl|]. split; [exact L|]. split; [exact F|exact H].
Qed.
Print Assumptions C48_links.
Definition h_act2 := u8 "2001. évi I. törvény".
Definition h_refs := [mk_outgoing 12 22 (mk_ref (Some h_act2) (RId (u8 "5")) RNone RNone RNone); mk_outgoing 2 9 (mk_ref None RNone (RId (u8 "4")) RNone RNone)].
Example C48_links_ex : good_positions h_refs /\
  (n <- text_with_links [] (u8 "A (4) bek. és az I. tv. 5. §-a.") (mk_ref None (RId (u8 "1")) (RId (u8 "2")) RNone RNone) h_refs ;; Ok (serialize n))
  = Ok (u8 "<div>A <a href=""#1_4__"">(4) bek</a>. é<a href=""2001. évi I. törvény.html#5___"">s az I. tv</a>. 5. §-a.</div>") /\
  text_with_links [] (u8 "A (4) bek.") EMPTY_REF [mk_outgoing 0 5 EMPTY_REF; mk_outgoing 4 6 EMPTY_REF] = Err AssertionError.
Proof.
  split; [|split; vm_compute; reflexivity]. split.
  - repeat (constructor; [cbn; lia|]). constructor.
  - repeat constructor; cbn; lia.
Qed.

(* Indentation changes nothing but text that is white space: no text of an element without children,
   no tag, no attribute, no order. *)
Theorem C48_indent : forall a body, html_body a false = Ok body ->
  exists indented, html_body a true = Ok indented /\ reindented body indented /\
    no_space (inner indented) = no_space (inner body) /\ id_elements indented = id_elements body.
Proof.
  intros a body E. exists (indent_node 0 body). rewrite html_body_indent, E. split; [reflexivity|]. pose proof (indent_only body 0) as R.
  split; [exact R|]. split; symmetry; [now apply reindented_text|now apply reindented_ids].
Qed.
Print Assumptions C48_indent.
(* but it may change the white space there is: between two links the space becomes a new line, and
   where there was nothing between a link and the end there is white space *)
Theorem C48_indent_refuted : exists text os n, good_positions os /\ text_with_links [] text EMPTY_REF os = Ok n /\
  inner n = text /\ inner (indent_node 1 n) <> text /\ no_space (inner (indent_node 1 n)) = no_space text.
Proof.
  exists (u8 "(1)-(2)"), [mk_outgoing 0 3 EMPTY_REF; mk_outgoing 3 7 EMPTY_REF].
  destruct (text_with_links [] (u8 "(1)-(2)") EMPTY_REF [mk_outgoing 0 3 EMPTY_REF; mk_outgoing 3 7 EMPTY_REF]) as [n|] eqn:E; vm_compute in E; [|discriminate]. injection E as <-.
  eexists. split; [split; [repeat (constructor; [cbn; lia|]); constructor|repeat constructor; cbn; lia]|]. split; [reflexivity|]. split; [reflexivity|]. split; [vm_compute; discriminate|vm_compute; reflexivity].
Qed.
Print Assumptions C48_indent_refuted.

(* What the file of an act shows, with tags removed and entities replaced: the act's identifier (the
   title), and all labels, texts and titles of the act in order, but for white space. *)
Theorem C48_file : forall a file, html_file a = Ok file ->
  no_space (shown file) = no_space (concat (act_identifier a :: act_strings a)).
Proof. exact file_shows. Qed.
Print Assumptions C48_file.
(* The file says how it is encoded, and a subtitle has a space between its number and title. *)
Theorem C48_head : forall a file, html_file a = Ok file -> exists rest,
  file = u8 "<!DOCTYPE html>" ++ [10%N] ++ u8 "<html><head><title>" ++ flat_map esc_text (act_identifier a) ++
    u8 "</title><meta http-equiv=""Content-Type"" content=""text/html; charset=utf-8""><link rel=""stylesheet"" href=""style.css""></head><body>" ++ rest.
Proof. exact head_ok. Qed.
Print Assumptions C48_head.
Theorem C48_subtitle : forall e n, html_struct e = Ok [n] -> se_kind e = KSubtitle -> exists f, formatted_identifier e = Ok f /\ shown (serialize n) = f ++ u8 " " ++ se_title e.
Proof. exact subtitle_ok. Qed.
Print Assumptions C48_subtitle.
Example C48_subtitle_ex : match html_struct (mk_struct KSubtitle (u8 "2") (u8 "Az a < b eset") false) with Ok [n] => shown (serialize n) = u8 "2. Az a < b eset" | _ => False end.
Proof. vm_compute. reflexivity. Qed.
Definition h_art := mk_article (u8 "1") None
  [ mk_sae KParagraph None None (Some (u8 "Az I. tv. <5. §>-a:"))
      (Some [ ChSae (mk_sae KNumericPoint (Some (u8 "1")) (Some (u8 "x & y")) None None None (mk_meta None (Some [mk_outgoing 0 1 (mk_ref None (RId (u8 "3")) (RId (u8 "2")) RNone RNone)]) None))])
      (Some (u8 "marad.")) (mk_meta None (Some h_refs) None) ].
Definition h_act := mk_act (u8 "2020. évi I. törvény") (mk_date 2020 1 1) (u8 "a tárgyról") (u8 "Preambulum.") [AArticle h_art].
Example C48_file_ex : match html_file h_act with
  | Ok file => shown file = 10%N :: u8 "2020. évi I. törvény" ++ [10%N; 10%N; 32%N; 32%N] ++ skipn 25 (shown file) /\
      no_space (shown file) = no_space (u8 "2020. évi I. törvény 2020. évi I. törvény a tárgyról Preambulum. 1. § Az I. tv. <5. §>-a: 1. x & y marad.")
  | Err _ => False
  end.
Proof. vm_compute. split; reflexivity. Qed.
Example C48_file_ex2 : (exists file, html_file t_act = Ok file) /\
  act_strings t_act = [t_id; u8 "Tárgy"; []; u8 "I. FEJEZET"; u8 "Fejezet"; u8 "3"; u8 ". §"; u8 "["; u8 "Cím"; u8 "]";
    u8 "(1) "; u8 "Egy."; u8 "(2) "; u8 "Bevezető:"; u8 "a) "; u8 "első"; u8 "b) "; u8 "második"; u8 "ba) "; u8 "x"; u8 "bb) "; u8 "y"; u8 "vége"; [];
    u8 "(2a) "; u8 "Módosul:"; u8 "„"; u8 "(9) "; u8 "Idézett."; u8 "8"; u8 ". §"; u8 "”"; [];
    u8 "3/A"; u8 ". §"; []; u8 "Számok:"; u8 "1. "; u8 "egy"; u8 "2. "; u8 "kettő"; []].
Proof. split; [eexists; vm_compute; reflexivity|vm_compute; reflexivity]. Qed.

(* An element that has only an introduction can be built, but no HTML can be made of it. *)
Theorem C48_only_intro_refuted : exists a, built_act a /\ html_file a = Err TypeError.
Proof.
  exists (mk_act t_id (mk_date 2012 7 13) [] [] [AArticle (mk_article (u8 "1") None [mk_sae KParagraph None None (Some (u8 "Bevezető")) None None NO_META])]).
  split; [|vm_compute; reflexivity]. intros x [E|[]]. injection E as <-. split; [|constructor; [reflexivity|constructor]]. match goal with |- built_article (mk_article ?i ?t ?ps) => apply (built_article_intro i t ps); [|reflexivity] end. intros p [<-|[]]. apply builtb_ok. reflexivity.
Qed.
Print Assumptions C48_only_intro_refuted.

(** * C49 *)

(* The ids that are not empty: one for each article, paragraph, point and subpoint outside
   amendments, in the order of the document, made of its place; none for what is inside. *)
Theorem C49_ids : forall a tree, built_act a -> html_tree a = Ok tree ->
  real_ids tree = map (fun rl => (relative_id_string (fst rl), no_space (snd rl))) (act_ids a).
Proof. exact tree_ids. Qed.
Print Assumptions C49_ids.
Example C49_ids_ex : built_act t_act /\ (tree <- html_tree t_act ;; Ok (real_ids tree)) = Ok
  [(u8 "3___", u8 "3.§"); (u8 "3_1__", u8 "(1)"); (u8 "3_2__", u8 "(2)"); (u8 "3_2_a_", u8 "a)"); (u8 "3_2_b_", u8 "b)"); (u8 "3_2_b_ba", u8 "ba)"); (u8 "3_2_b_bb", u8 "bb)");
   (u8 "3_2a__", u8 "(2a)"); (u8 "3slashA___", u8 "3/A.§"); (u8 "3slashA___", []); (u8 "3slashA__1_", u8 "1."); (u8 "3slashA__2_", u8 "2.")].
Proof. split; [exact t_built|]. vm_compute. reflexivity. Qed.

(* If siblings have different identifiers, no two elements that have a label have the same id. *)
Theorem C49_unique : forall a tree, built_act a -> distinct_act a -> safe_ids a -> html_tree a = Ok tree -> NoDup (labelled_ids tree).
Proof. exact labelled_unique. Qed.
Print Assumptions C49_unique.
(* An unnamed paragraph has the id of its article, as it has no label it is the only exception. *)
Theorem C49_unnamed_refuted : exists a tree, built_act a /\ distinct_act a /\ safe_ids a /\ html_tree a = Ok tree /\ ~ NoDup (map fst (real_ids tree)).
Proof.
  destruct (html_tree t_act) as [tree|] eqn:E; [|vm_compute in E; discriminate]. exists t_act, tree. split; [exact t_built|].
  assert (D : forall s, negb (str_eqb s []) && negb (mem_chr 95 s) && negb (mem_chr 45 s) &&
    negb (contains_sub (u8 "slash") s) && negb (contains_sub (u8 "colon") s) = true -> string_safe s).
  { intros s H. repeat (apply andb_prop in H as [H ?H]). apply negb_true_iff in H, H0, H1, H2, H3.
    unfold string_safe. rewrite <- !mem_chr_false. apply str_eqb_neq in H. auto. }
  split; [|split; [|split; [exact E|]]].
  - split; [vm_compute; repeat constructor; cbn; intuition discriminate|]. constructor; [|constructor; [|constructor]].
    + split; [vm_compute; repeat constructor; cbn; intuition discriminate|]. cbn [a_paragraphs t_art0].
      constructor; [split; [split; constructor|constructor]|]. constructor; [|constructor; [split; [split; constructor|constructor]|constructor]].
      split; [split; [vm_compute; repeat constructor; cbn; intuition discriminate|repeat constructor; discriminate]|].
      constructor; [split; constructor|]. constructor; [|constructor]. split; [vm_compute; repeat constructor; cbn; intuition discriminate|repeat constructor; discriminate].
    + split; [vm_compute; repeat constructor; cbn; intuition discriminate|]. constructor; [|constructor].
      split; [split; [vm_compute; repeat constructor; cbn; intuition discriminate|repeat constructor; discriminate]|repeat (constructor; [split; constructor|]); constructor].
  - unfold safe_ids. change (act_ids t_act) with (article_ids t_art0 ++ article_ids t_art1). cbn [article_ids nodes flat_map t_art0 t_art1 a_paragraphs a_identifier app map fst place s_identifier s_kind t_apoint t_point t_sub].
    repeat (constructor; [cbn [components tl r_act r_article r_paragraph r_point r_subpoint fst]; repeat (constructor; [cbn [part_safe]; first [exact I|apply D; reflexivity]|]); constructor|]). constructor.
  - assert (T := tree_ids t_act tree t_built E). rewrite T. vm_compute. intros N. do 8 (apply NoDup_cons_iff in N as [_ N]). apply NoDup_cons_iff in N as [N _]. apply N. now left.
Qed.
Print Assumptions C49_unnamed_refuted.

(* A link to the place of an element of the act leads to it; so does a link from another act, if
   the file is named after the act. *)
Theorem C49_targets : forall a tree r l, built_act a -> html_tree a = Ok tree -> In (r, l) (act_ids a) ->
  In (relative_id_string r, no_space l) (real_ids tree) /\
  get_href r = u8 "#" ++ relative_id_string r /\
  get_href (with_act (Some (act_identifier a)) r) = act_identifier a ++ u8 ".html" ++ u8 "#" ++ relative_id_string r.
Proof.
  intros a tree r l B E I. split; [|split].
  - rewrite (tree_ids a tree B E). apply (in_map (fun rl => (relative_id_string (fst rl), no_space (snd rl))) _ _ I).
  - unfold get_href. rewrite (act_ids_inner a r l I). reflexivity.
  - unfold get_href. destruct r. apply (app_assoc_reverse (act_identifier a) (u8 ".html")).
Qed.
Print Assumptions C49_targets.
Example C49_targets_ex : In (mk_ref None (RId (u8 "3")) (RId (u8 "2")) (RId (u8 "b")) RNone, u8 "b) ") (act_ids t_act).
Proof. vm_compute. do 4 right. now left. Qed.
(* A link to a range leads nowhere, though everything in the range is there. *)
Theorem C49_range_refuted : exists a tree r l, built_act a /\ html_tree a = Ok tree /\
  act_at_reference a (with_act (Some (act_identifier a)) r) = Ok l /\ l <> [] /\ get_href r = u8 "#" ++ relative_id_string r /\
  ~ In (relative_id_string r) (map fst (id_elements tree)).
Proof.
  destruct (html_tree t_act) as [tree|] eqn:E; [|vm_compute in E; discriminate].
  exists t_act, tree, (mk_ref None (RId (u8 "3")) (RRange (u8 "1") (u8 "2")) RNone RNone). eexists. split; [exact t_built|]. split; [exact E|]. split; [vm_compute; reflexivity|]. split; [discriminate|]. split; [reflexivity|].
  intros I. assert (R : In (relative_id_string (mk_ref None (RId (u8 "3")) (RRange (u8 "1") (u8 "2")) RNone RNone)) (map fst (real_ids tree))).
  { apply in_map_iff in I as (x & Ex & I). apply in_map_iff. exists x. split; auto. apply filter_In. split; auto. rewrite Ex. reflexivity. }
  rewrite (tree_ids t_act tree t_built E) in R. vm_compute in R. repeat (destruct R as [R|R]; [discriminate|]). destruct R.
Qed.
Print Assumptions C49_range_refuted.
