(* Properties C63-C66: what the grammar finds in a text is in the text; which texts it can read; what
   follows for acts, and for the HTML made of them. *)
From Coq Require Import Lia Sorted SpecFloat.
From Coq Require Import ZifyBool ZifyNat ZifyN.
From Verif Require Import PyBase PyBaseFacts NumModel IdModel DateModel RefModel RefSpec TreeModel TreeSpec StructModel StructSpec LineModel SemModel SemSpec SemProofs SemProofs6 P_Sem HtmlModel HtmlSpec HtmlProofs6
  GramModel GramSpec PegModel PegSpec PegProofs9 PegProofs10 PegProofs14 PegProofs17 PegProofs19 PegProofs20 PegProofs21.
Local Open Scope Z_scope.

Definition c63_text : pystr :=
  u8 "A hegyközségekről szóló 2012. évi CCXIX. törvény (a továbbiakban: Hktv.) 28. § (1) és (2) bekezdése, valamint 30/A. §-a.".
Definition c63_repeal : pystr := u8 "Hatályát veszti az Eht. 28. § (1) bekezdésében az „illetve” szövegrész.".

(** C63 *)
Theorem C63_places : forall text a o, grammar_analyzer text = Some a -> In o (an_references a) -> piece text (or_start o) (or_end o).
Proof. intros text a o H I. destruct (grammar_sound text a H) as [F _]. rewrite Forall_forall in F. exact (proj1 (F o I)). Qed.
Print Assumptions C63_places.
Theorem C63_references : forall text a o, grammar_analyzer text = Some a -> In o (an_references a) -> grounded text (or_reference o).
Proof. intros text a o H I. destruct (grammar_sound text a H) as [F _]. rewrite Forall_forall in F. exact (proj2 (F o I)). Qed.
Print Assumptions C63_references.
Example C63_references_ex : exists a, grammar_analyzer c63_text = Some a /\
  map (fun o => (or_start o, or_end o, r_article (or_reference o), r_paragraph (or_reference o))) (an_references a) =
    [(24, 48, RNone, RNone); (73, 99, RId (u8 "28"), RRange (u8 "1") (u8 "2")); (110, 119, RId (u8 "30/A"), RNone)] /\
  Forall (fun o => r_act (or_reference o) = Some (u8 "2012. évi CCXIX. törvény")) (an_references a).
Proof. eexists. split; [vm_compute; reflexivity|]. split; [vm_compute; reflexivity|]. repeat constructor. Qed.
Theorem C63_semantic : forall text a s, grammar_analyzer text = Some a -> In s (an_semantic a) -> semantic_grounded text s.
Proof. intros text a s H I. destruct (grammar_sound text a H) as (_ & F & _). rewrite Forall_forall in F. exact (F s I). Qed.
Print Assumptions C63_semantic.
Example C63_semantic_ex : exists a, grammar_analyzer c63_repeal = Some a /\
  an_semantic a = [Repeal (ARef (mk_ref (Some (u8 "Eht.")) (RId (u8 "28")) (RId (u8 "1")) RNone RNone)) (Some (u8 "illetve"))].
Proof. eexists. split; vm_compute; reflexivity. Qed.
Definition c63_amendment : pystr := u8 "Az Eht. 12. §-ában a „kis „nagy” ház” szövegrész helyébe az „ udvar ” szöveg lép.".
Definition c63_enforcement : pystr := u8 "Ez a törvény a kihirdetését követő tizenötödik napon lép hatályba, és 2013. február 28-án hatályát veszti.".
Definition c63_structure : pystr := u8 "Hatályát veszti az Eht. II. Fejezete.".
Example C63_more_ex : (exists a, grammar_analyzer c63_amendment = Some a /\
    an_semantic a = [TextAmendment (mk_ref (Some (u8 "Eht.")) (RId (u8 "12")) RNone RNone RNone) (u8 "kis „nagy” ház") (u8 "udvar")]) /\
  (exists a, grammar_analyzer c63_enforcement = Some a /\
    an_semantic a = [EnforcementDate None (EDaysAfterPublication 15) (Some (mk_date 2013 2 28))]) /\
  (exists a, grammar_analyzer c63_structure = Some a /\ exists r, an_semantic a = [Repeal (ASRef r) None] /\ sr_chapter r = Some (u8 "2")).
Proof.
  split; [|split].
  - eexists. split; vm_compute; reflexivity.
  - eexists. split; vm_compute; reflexivity.
  - eexists. split; [vm_compute; reflexivity|]. eexists. split; vm_compute; reflexivity.
Qed.
Theorem C63_abbreviations : forall text a x, grammar_analyzer text = Some a -> In x (an_abbreviations a) -> abbreviation_grounded text x.
Proof. intros text a x H I. destruct (grammar_sound text a H) as (_ & _ & F). rewrite Forall_forall in F. exact (F x I). Qed.
Print Assumptions C63_abbreviations.
Example C63_abbreviations_ex : exists a, grammar_analyzer c63_text = Some a /\
  an_abbreviations a = [mk_abbreviation (u8 "Hktv.") (u8 "2012. évi CCXIX. törvény")].
Proof. eexists. split; vm_compute; reflexivity. Qed.
(* what C37 needs of an analyzer *)
Theorem C63_sane : sane_spans grammar_analyzer.
Proof. exact grammar_sane. Qed.
Print Assumptions C63_sane.
Theorem C63_positions : forall a a' e refs, built_act a -> unparsed_act a ->
  add_semantics_to_act grammar_analyzer a = Ok a' -> In e (carriers_of a') -> m_outgoing (s_meta e) = Some refs ->
  StronglySorted position_le refs /\
  forall r, In r refs -> exists s, own_text e = Some s /\ 0 <= or_start r < or_end r /\ or_end r <= Z.of_nat (List.length s) + 1.
Proof. intros a a' e refs B U. exact (C37_positions grammar_analyzer a a' e refs grammar_sane B U). Qed.
Print Assumptions C63_positions.
Definition c63_act := c36_act [c36_leaf KParagraph (u8 "1") (u8 "A 2013. évi V. törvény (a továbbiakban: Ptk.) 6:1. §-a és a 3. §")]
  [c36_leaf KParagraph (u8 "1") (u8 "A Ptk. 5. §-a.")].
Example C63_positions_ex : built_act c63_act /\ unparsed_act c63_act /\ exists a', add_semantics_to_act grammar_analyzer c63_act = Ok a' /\
  map (fun e => option_map (map (fun o => (or_start o, or_end o, r_act (or_reference o)))) (m_outgoing (s_meta e))) (carriers_of a') =
  [Some [(2, 22, Some (u8 "2013. évi V. törvény")); (46, 54, Some (u8 "2013. évi V. törvény")); (60, 64, Some (u8 "2013. évi V. törvény"))];
   Some [(2, 6, Some (u8 "2013. évi V. törvény")); (7, 13, Some (u8 "2013. évi V. törvény"))]].
Proof.
  split; [unfold c63_act; build_act|]. split; [repeat constructor|].
  destruct (add_semantics_to_act grammar_analyzer c63_act) as [a'|] eqn:E; [|vm_compute in E; discriminate].
  exists a'. split; [reflexivity|]. vm_compute in E. injection E as <-. vm_compute. reflexivity.
Qed.

(** C64: every text with something to see in it is read. *)
Theorem C64_parses : forall text, (exists t, grammar_parse text = Some t) <-> visible text.
Proof. exact parses. Qed.
Print Assumptions C64_parses.
Example C64_parses_ex : visible (u8 "  („ x") /\ ~ visible (u8 "   ") /\ grammar_analyzer (u8 "   ") = None.
Proof.
  split; [exists 40%N; split; [vm_compute; auto|reflexivity]|]. split; [|vm_compute; reflexivity].
  intros (c & I & S). vm_compute in I. intuition (subst c; discriminate).
Qed.
(* The conversion of what was read can fail, but only on texts about subpoints, block amendments of subtitles,
   block amendments that both amend and insert, and dates of entering into force. *)
Theorem C64_total : forall text, unsuspected text -> visible text -> exists a, grammar_analyzer text = Some a.
Proof. exact analyzer_total. Qed.
Print Assumptions C64_total.
Definition c64_text : pystr := u8 "Az Eht. 5. § (2) bekezdése, 7. § a)–c) pontja helyébe a következő rendelkezés lép:".
Ltac not_there := let a := fresh in let b := fresh in let E := fresh in
  intros (a & b & E); refine (Bool.diff_false_true _); rewrite <- (proj2 (contains_sub_spec _ _) (ex_intro _ a (ex_intro _ b E))); vm_compute; reflexivity.
Example C64_total_ex : unsuspected c64_text /\ visible c64_text /\ unsuspected c63_amendment.
Proof.
  split; [|split].
  - split; [not_there|]. split; [intros [_ X]; revert X; not_there|]. split; [intros (_ & _ & [X|X]); revert X; not_there|].
    intros [X _]. revert X. not_there.
  - exists 65%N. split; [vm_compute; auto|reflexivity].
  - split; [not_there|]. split; [intros [_ X]; revert X; not_there|]. split; [intros (_ & _ & [X|X]); revert X; not_there|].
    intros [X _]. revert X. not_there.
Qed.
(* Each of the four can make it fail: points among subpoints, dates that do not exist, amended and inserted parts
   of different depth or not one after the other, and several articles below a new subtitle. *)
Theorem C64_total_refuted : Forall (fun text => visible text /\ grammar_analyzer text = None)
  [u8 "A 1. § a) pont ab) és a) alpontja.";
   u8 "E törvény 2013. február 30-án lép hatályba.";
   u8 "Az Eht. 5. § (2) bekezdése helyébe a következő rendelkezés lép, és a következő 6. §-sal egészül ki:";
   u8 "Az Eht. 5. § (2) bekezdése helyébe a következő rendelkezés lép, és a § a következő (1) bekezdéssel egészül ki:";
   u8 "Az Eht. a következő alcímmel és 5. és 8. §-sal egészül ki:"].
Proof.
  repeat (apply Forall_cons; [split; [eexists; split; [vm_compute; left; reflexivity|reflexivity]|vm_compute; reflexivity]|]). constructor.
Qed.
Print Assumptions C64_total_refuted.

(** C65: no two references of a text end at the same place, so they can always be put in order. *)
Theorem C65_ends : forall text a, grammar_analyzer text = Some a -> NoDup (map or_end (an_references a)).
Proof. exact ends_differ. Qed.
Print Assumptions C65_ends.
Example C65_ends_ex : exists a, grammar_analyzer c63_text = Some a /\ map or_end (an_references a) = [48; 99; 119].
Proof. destruct (grammar_analyzer c63_text) as [a|] eqn:E; [|vm_compute in E; discriminate]. exists a. split; [reflexivity|]. vm_compute in E. injection E as <-. vm_compute. reflexivity. Qed.
(* Without ranges they do not overlap either. *)
Theorem C65_apart : forall text a, ~ range_dash text -> grammar_analyzer text = Some a ->
  ForallOrdPairs (fun x y => or_end x <= or_start y \/ or_end y <= or_start x) (an_references a).
Proof. exact references_apart. Qed.
Print Assumptions C65_apart.
(* dashes that are not those of §-a *)
Fixpoint dashes (before : N) (s : pystr) : bool :=
  match s with
  | [] => false
  | c :: t => (existsb (N.eqb c) (u8 "−–-") && negb ((before =? 167)%N && match t with x :: _ => (97 <=? x)%N && (x <=? 122)%N | [] => false end)) || dashes c t
  end.
Lemma dashes_ok s : dashes 0 s = false -> ~ range_dash s.
Proof.
  intros H (u & d & v & -> & D & N).
  assert (G : forall u b, dashes b (u ++ d :: v) = false -> existsb (N.eqb d) (u8 "−–-") && negb ((last (b :: u) 0 =? 167)%N && match v with x :: _ => (97 <=? x)%N && (x <=? 122)%N | [] => false end) = false).
  { clear. induction u as [|c u IH]; intros b H; cbn [app dashes] in H; apply Bool.orb_false_iff in H as [H1 H2]; [exact H1|]. change (last (b :: c :: u) 0)%N with (last (c :: u) 0)%N. now apply IH. }
  specialize (G u 0%N H). apply Bool.andb_false_iff in G as [G|G].
  - assert (X : existsb (N.eqb d) (u8 "−–-") = true) by (apply existsb_exists; exists d; split; [exact D|apply N.eqb_refl]). congruence.
  - apply Bool.negb_false_iff, andb_prop in G as [G1 G2]. destruct v as [|x v]; [discriminate|]. apply N. destruct u as [|c u]; [discriminate|].
    destruct (@exists_last _ (c :: u)) as (u' & y & E); [discriminate|]. exists u', x, v. rewrite E in G1. change (last (0 :: u' ++ [y]) 0)%N with (last ((0 :: u') ++ [y]) 0)%N in G1. rewrite last_last in G1.
    split; [rewrite E; f_equal; f_equal; lia|]. split; [reflexivity|unfold is_small; lia].
Qed.
Example C65_apart_ex : ~ range_dash c63_text /\ exists a, grammar_analyzer c63_text = Some a /\
  map (fun o => (or_start o, or_end o)) (an_references a) = [(24, 48); (73, 99); (110, 119)].
Proof.
  split; [apply dashes_ok; vm_compute; reflexivity|].
  destruct (grammar_analyzer c63_text) as [a|] eqn:E; [|vm_compute in E; discriminate]. exists a. split; [reflexivity|]. vm_compute in E. injection E as <-. vm_compute. reflexivity.
Qed.
(* With a range between two paragraphs that follow one another they may overlap: the two are put together. *)
Definition c65_text : pystr := u8 "A 3. § (1), (5)–(6) és (2) bekezdése szerint.".
Theorem C65_apart_refuted : exists a x y rest, grammar_analyzer c65_text = Some a /\ an_references a = x :: y :: rest /\
  or_start x < or_start y /\ or_start y < or_end x /\ or_end x < or_end y.
Proof.
  destruct (grammar_analyzer c65_text) as [a|] eqn:E; [|vm_compute in E; discriminate]. vm_compute in E. injection E as <-.
  do 4 eexists. split; [reflexivity|]. split; [reflexivity|]. vm_compute. auto.
Qed.
Print Assumptions C65_apart_refuted.
(* An act whose texts are all clear gets its semantic data. *)
Theorem C65_act : forall a, built_act a -> unparsed_act a -> complete_act a -> Forall clear (readings_of a) ->
  exists a', add_semantics_to_act grammar_analyzer a = Ok a'.
Proof. exact grammar_act. Qed.
Print Assumptions C65_act.
(* a list of which the introduction, the points and the closing text are read together *)
Definition c65_act := c36_act [c36_leaf KParagraph (u8 "1") (u8 "A 2013. évi V. törvény (a továbbiakban: Ptk.) 6:1. §-a és a 3. §")]
  [mk_sae KParagraph None None (Some (u8 "A Ptk. 5. §-a szerint")) (Some [ChSae (c36_leaf KAlphabeticPoint (u8 "a") (u8 "a (3) bekezdés, és")); ChSae (c36_leaf KAlphabeticPoint (u8 "b") (u8 "a 8. §"))])
     (Some (u8 "alkalmazandó.")) NO_META].
Lemma c65_built : built_act c65_act. Proof. unfold c65_act. build_act. Qed.
Lemma c65_unparsed : unparsed_act c65_act. Proof. repeat constructor. Qed.
Lemma c65_complete : complete_act c65_act.
Proof. repeat (apply Forall_cons; [unfold complete; cbn; (left; discriminate) + (right; discriminate)|]). apply Forall_nil. Qed.
Ltac unsuspect := split; [not_there|]; split; [intros [_ X]; revert X; not_there|]; split; [intros (_ & _ & [X|X]); revert X; not_there|]; intros [X _]; revert X; not_there.
Lemma c65_clear : Forall clear (readings_of c65_act).
Proof.
  assert (G : forall s p q t, fix_list_element_end s (match q with [] => true | _ => false end) = Ok t -> unsuspected (p ++ t ++ q) -> clear (mk_reading (Some s) p q)).
  { intros s p q t H N. exists t. split; [now apply fix_end_spec|]. intros _. exact N. }
  repeat (apply Forall_cons; [eapply G; [vm_compute; reflexivity|unsuspect]|]). apply Forall_nil.
Qed.
Lemma c65_rangeless : Forall rangeless (readings_of c65_act).
Proof.
  assert (G : forall s p q t, fix_list_element_end s (match q with [] => true | _ => false end) = Ok t -> dashes 0 (p ++ t ++ q) = false -> rangeless (mk_reading (Some s) p q)).
  { intros s p q t H N t' I _. apply fix_end_spec in I. cbn [rd_after rd_before] in *. assert (t' = t) as -> by congruence. now apply dashes_ok. }
  repeat (apply Forall_cons; [eapply G; [vm_compute; reflexivity|vm_compute; reflexivity]|]). apply Forall_nil.
Qed.
Example C65_act_ex : exists a', add_semantics_to_act grammar_analyzer c65_act = Ok a' /\
  map (fun e => option_map (map (fun o => (or_start o, or_end o, r_act (or_reference o), r_article (or_reference o), r_paragraph (or_reference o)))) (m_outgoing (s_meta e))) (carriers_of a') =
  let p := Some (u8 "2013. évi V. törvény") in
  [Some [(2, 22, p, RNone, RNone); (46, 54, p, RId (u8 "6:1"), RNone); (60, 64, p, RId (u8 "3"), RNone)];
   Some [(2, 6, p, RNone, RNone); (7, 13, p, RId (u8 "5"), RNone)];
   Some [(2, 14, None, RNone, RId (u8 "3"))]; Some [(2, 6, None, RId (u8 "8"), RNone)]].
Proof.
  destruct (C65_act _ c65_built c65_unparsed c65_complete c65_clear) as (a' & E). exists a'. split; [exact E|]. vm_compute in E. injection E as <-. vm_compute. reflexivity.
Qed.
(* Then, without ranges, the references of each element can be made links. *)
Theorem C65_positions : forall a a', built_act a -> unparsed_act a -> Forall rangeless (readings_of a) ->
  add_semantics_to_act grammar_analyzer a = Ok a' ->
  forall e refs, In e (carriers_of a') -> m_outgoing (s_meta e) = Some refs -> good_positions refs.
Proof. exact grammar_positions. Qed.
Print Assumptions C65_positions.
Example C65_positions_ex : built_act c65_act /\ unparsed_act c65_act /\ Forall rangeless (readings_of c65_act).
Proof. exact (conj c65_built (conj c65_unparsed c65_rangeless)). Qed.

(** C66: HTML can be made of every act in which all can be shown: an element has a text or children, references do
    not overlap, a quoted block has lines and its indents are numbers, the numbers of chapters can be written. *)
Theorem C66_html : forall a, showable_act a -> exists file, html_file a = Ok file.
Proof. exact html_total. Qed.
Print Assumptions C66_html.
(* Also after the grammar has found the references in it, if there were no ranges. *)
Theorem C66_grammar : forall a, built_act a -> unparsed_act a -> complete_act a -> Forall clear (readings_of a) ->
  Forall rangeless (readings_of a) -> showable_act a ->
  exists a' file, add_semantics_to_act grammar_analyzer a = Ok a' /\ html_file a' = Ok file.
Proof.
  intros a B U C R L S. destruct (grammar_act a B U C R) as (a' & E). destruct (grammar_html a a' B U L S E) as (file & F). eauto.
Qed.
Print Assumptions C66_grammar.
Definition c66_quote := [mk_line [mk_part (f_of_Z 20) (u8 "„(9) Idézet") false] f_zero; EMPTY_LINE; mk_line [mk_part (f_of_Z 5) (u8 "vége.”") false] f_zero].
Definition c66_act := mk_act (u8 "2020. évi I. törvény") (mk_date 2020 1 1) (u8 "tárgy") []
  [AStruct (mk_struct KChapter (u8 "4") (u8 "Fejezet") false);
   AArticle (mk_article (u8 "1") None [mk_sae KParagraph None None (Some (u8 "A Ptk. 5. §-a szerint:")) (Some [ChQuoted c66_quote]) None NO_META])].
Ltac show := repeat match goal with
  | H : In _ [] |- _ => destruct H
  | H : In _ (_ :: _) |- _ => destruct H as [H|H]; [subst|]
  | H : AArticle _ = AStruct _ |- _ => discriminate H
  | H : AStruct _ = AArticle _ |- _ => discriminate H
  | H : AArticle _ = AArticle _ |- _ => injection H as <-
  | H : AStruct _ = AStruct _ |- _ => injection H as <-
  | H : Some _ = Some _ |- _ => injection H as <-
  | H : None = Some _ |- _ => discriminate H
  | H : inside_article _ (mk_article _ _ _) |- _ => inversion H; subst; clear H; cbn [a_paragraphs] in *
  | H : inside_sae _ (mk_sae _ _ _ _ _ _ _) |- _ => inversion H; subst; clear H; cbn [s_children] in *
  | H : inside_child_of _ (ChSae _) |- _ => inversion H; subst; clear H
  | H : inside_child_of _ (ChQuoted _) |- _ => inversion H
  end.
Lemma no_links : good_positions []. Proof. split; constructor. Qed.
Example C66_html_ex : showable_act c66_act.
Proof.
  split.
  - intros x c X C. cbn [c66_act act_children] in X. show.
    + split; [left; discriminate|intros _; apply no_links].
    + split.
      * eexists. split; [now left|reflexivity].
      * intros l m L M. unfold c66_quote in *. show; eexists; vm_compute; reflexivity.
  - intros e X. cbn [c66_act act_children] in X. show. eexists. vm_compute. reflexivity.
Qed.
Example C66_grammar_ex : showable_act c65_act /\ exists a' file, add_semantics_to_act grammar_analyzer c65_act = Ok a' /\ html_file a' = Ok file.
Proof.
  assert (S : showable_act c65_act).
  { split.
    - intros x c X C. unfold c65_act, c36_act, c36_leaf in *. cbn [act_children] in X.
      show; (split; [(left; discriminate) + (right; split; [discriminate|eexists; split; [reflexivity|discriminate]])|intros _; apply no_links]).
    - intros e X. unfold c65_act, c36_act in X. cbn [act_children] in X. show; eexists; vm_compute; reflexivity. }
  split; [exact S|]. exact (C66_grammar _ c65_built c65_unparsed c65_complete c65_clear c65_rangeless S).
Qed.
(* The overlapping references make the output of an act fail that could be shown before. *)
Definition c66_overlap := c36_act [c36_leaf KParagraph (u8 "1") c65_text] [].
Theorem C66_overlap_refuted : exists a', built_act c66_overlap /\ unparsed_act c66_overlap /\ complete_act c66_overlap /\ showable_act c66_overlap /\
  add_semantics_to_act grammar_analyzer c66_overlap = Ok a' /\ html_file a' = Err AssertionError.
Proof.
  destruct (add_semantics_to_act grammar_analyzer c66_overlap) as [a'|] eqn:E; [|vm_compute in E; discriminate]. exists a'.
  split; [unfold c66_overlap; build_act|]. split; [repeat constructor|]. split; [repeat (apply Forall_cons; [left; discriminate|]); apply Forall_nil|].
  split; [|split; [reflexivity|vm_compute in E; injection E as <-; vm_compute; reflexivity]]. split.
  - intros x c X C. unfold c66_overlap, c36_act, c36_leaf in *. cbn [act_children] in X. show; (split; [right; split; [discriminate|eexists; split; [reflexivity|discriminate]]|intros _; apply no_links]).
  - intros e X. unfold c66_overlap, c36_act in X. cbn [act_children] in X. show; eexists; vm_compute; reflexivity.
Qed.
Print Assumptions C66_overlap_refuted.
(* An empty text, an empty quote, and an indent that is no number are the other reasons. *)
Theorem C66_reasons_refuted :
  html_file (c36_act [c36_leaf KParagraph (u8 "1") []] []) = Err TypeError /\
  html_file (c36_act [mk_sae KParagraph None None (Some (u8 "x:")) (Some [ChQuoted [EMPTY_LINE]]) None NO_META] []) = Err ValueError /\
  html_file (c36_act [mk_sae KParagraph None None (Some (u8 "x:")) (Some [ChQuoted [mk_line [mk_part (S754_infinity false) (u8 "y") false] f_zero; mk_line [mk_part (f_of_Z 1) (u8 "z") false] f_zero]]) None NO_META] []) = Err OverflowError /\
  html_file (mk_act [] (mk_date 2020 1 1) [] [] [AStruct (mk_struct KBook (u8 "200") [] false)]) = Err ValueError.
Proof. repeat split; vm_compute; reflexivity. Qed.
Print Assumptions C66_reasons_refuted.
