(* Properties C36-C39, C54, C55: semantic parsing and block amendments. *)
From Coq Require Import Lia Permutation Sorted.
From Verif Require Import PyBase PyBaseFacts IdModel LineModel LineSpec DateModel RefModel TreeModel TreeSpec TreeProofs StructModel
  P_Struct   SemModel SemSpec SemProofs SemProofs2 SemProofs3 SemProofs4 SemProofs5 SemProofs6 SemProofs7 SemProofs8 SemProofs9.
Local Open Scope Z_scope.

(** The example: two articles, an abbreviation introduced in the first and used in both. *)
Definition c36_ref (act : pystr) := mk_ref (Some act) RNone RNone RNone RNone.
(* Finds "V. törvény (Ptk.)" (introduces Ptk.), and the first "Ptk." as a reference. *)
Definition c36_analyzer : analyzer := fun s => Some (mk_analysis
  (match find_sub (u8 "Ptk.") s with
   | Some n => [mk_outgoing (Z.of_nat n) (Z.of_nat n + 4) (c36_ref (u8 "Ptk."))]
   | None => []
   end) []
  ((if contains_sub (u8 "V. törvény (Ptk.)") s then [mk_abbreviation (u8 "Ptk.") (u8 "2013. évi V. törvény")] else []) ++
   (if contains_sub (u8 "IV. törvény (Ptk.)") s then [mk_abbreviation (u8 "Ptk.") (u8 "1959. évi IV. törvény")] else []))).
Definition c36_leaf k i t := mk_sae k (Some i) (Some t) None None None NO_META.
Definition c36_act ps qs := mk_act (u8 "2020. évi I. törvény") (mk_date 2020 1 1) (u8 "tárgy") []
  [AStruct (mk_struct KChapter (u8 "1") (u8 "Fejezet") false); AArticle (mk_article (u8 "1") None ps); AArticle (mk_article (u8 "2") None qs)].
Definition c36_first := [c36_leaf KParagraph (u8 "1") (u8 "A 2013. évi V. törvény (Ptk.) él");
  c36_leaf KParagraph (u8 "2") (u8 "Semmi.")].
Definition c36_second := [mk_sae KParagraph (Some (u8 "1")) None (Some (u8 "A Ptk. szerinti törvény:"))
  (Some [ChSae (c36_leaf KAlphabeticPoint (u8 "a") (u8 "egyik, és")); ChSae (c36_leaf KAlphabeticPoint (u8 "b") (u8 "Ptk. másik"))]) (Some (u8 "kell.")) NO_META].
Definition c36_example := c36_act c36_first c36_second.

Ltac each H tac := lazymatch type of H with False => destruct H | _ => destruct H as [H|H]; [tac H|each H tac] end.
Ltac build_sae := unfold c36_leaf; match goal with |- built_sae (mk_sae ?k ?i ?t ?n ?cs ?w ?m) =>
  apply (built_sae_intro k i t n cs w m); [|vm_compute; reflexivity];
  let l := fresh in let x := fresh in let E := fresh in let H := fresh in
  intros l x E H; first [discriminate E |
  injection E as <-; cbn [In] in H; each H ltac:(fun H => subst x; constructor; build_sae)] end.
Ltac build_article := match goal with |- built_article (mk_article ?i ?t ?ps) =>
  apply (built_article_intro i t ps); [|vm_compute; reflexivity];
  let p := fresh in let H := fresh in intros p H; cbn [In] in H; each H ltac:(fun H => subst p; build_sae) end.
Ltac build_act := let x := fresh in let H := fresh in intros x H; cbn [In act_children c36_act] in H;
  each H ltac:(fun H => first [discriminate H | injection H as <-; split; [build_article|repeat constructor]]).
Lemma c36_built : built_act c36_example.
Proof. unfold c36_example, c36_first, c36_second. build_act. Qed.
Lemma c36_unparsed : unparsed_act c36_example.
Proof. unfold unparsed_act. repeat constructor. Qed.

(** C36: semantic parsing only adds semantic data: identifiers, titles, texts and the shape of the
    act stay, whatever the analyser finds. *)
Theorem C36_only_adds : forall an a a', add_semantics_to_act an a = Ok a' -> bare_act a' = bare_act a.
Proof. exact act_keeps. Qed.
Print Assumptions C36_only_adds.
(* The result is marked as parsed, and parsing it again, even by another analyser, does nothing. *)
Theorem C36_marked : forall an a a', (forall x, In (AArticle x) (act_children a) -> paragraphs_only x) ->
  add_semantics_to_act an a = Ok a' -> act_is_semantic_parsed a' = true.
Proof. exact act_parsed. Qed.
Print Assumptions C36_marked.
Theorem C36_idempotent : forall an an' a a', (forall x, In (AArticle x) (act_children a) -> paragraphs_only x) ->
  add_semantics_to_act an a = Ok a' -> add_semantics_to_act an' a' = Ok a'.
Proof. exact act_idempotent. Qed.
Print Assumptions C36_idempotent.
(* It succeeds on every act whose texts can be read. *)
Theorem C36_succeeds : forall an a, built_act a -> unparsed_act a -> complete_act a -> Forall (readable an) (readings_of a) ->
  exists a', add_semantics_to_act an a = Ok a'.
Proof. exact act_total. Qed.
Print Assumptions C36_succeeds.
Definition c36_outgoing (a : act) := map (fun e => (own_text e, m_outgoing (s_meta e))) (carriers_of a).
Definition c36_full := Some (u8 "2013. évi V. törvény").
Example C36_ex : (forall x, In (AArticle x) (act_children c36_example) -> paragraphs_only x) /\
  exists a', add_semantics_to_act c36_analyzer c36_example = Ok a' /\ a' <> c36_example /\
  c36_outgoing a' =
    [(Some (u8 "A 2013. évi V. törvény (Ptk.) él"), Some [mk_outgoing 24 28 (mk_ref c36_full RNone RNone RNone RNone)]);
     (Some (u8 "Semmi."), Some []);
     (Some (u8 "A Ptk. szerinti törvény:"), Some [mk_outgoing 2 6 (mk_ref c36_full RNone RNone RNone RNone)]);
     (Some (u8 "egyik, és"), Some []);
     (Some (u8 "Ptk. másik"), Some [])].
Proof.
  split; [intros x H; now apply c36_built|].
  destruct (add_semantics_to_act c36_analyzer c36_example) as [a'|] eqn:E; [|vm_compute in E; discriminate].
  exists a'. split; [reflexivity|]. vm_compute in E. injection E as <-. split; [discriminate|vm_compute; reflexivity].
Qed.
Lemma c36_readable : Forall (readable c36_analyzer) (readings_of c36_example) /\ complete_act c36_example.
Proof.
  assert (G : forall s p q t, fix_list_element_end s (match q with [] => true | _ => false end) = Ok t ->
     NoDup (map or_end (match c36_analyzer (p ++ t ++ q) with Some a => an_references a | None => [] end)) ->
     readable c36_analyzer (mk_reading (Some s) p q)).
  { intros s p q t H N. exists t. split; [now apply fix_end_spec|]. intros _. eexists. split; [reflexivity|]. exact N. }
  split.
  - repeat (apply Forall_cons; [eapply G; [vm_compute; reflexivity|vm_compute; repeat constructor; cbn; intuition discriminate]|]). apply Forall_nil.
  - repeat (apply Forall_cons; [unfold complete; cbn; (left; discriminate) + (right; discriminate)|]). apply Forall_nil.
Qed.
Example C36_succeeds_ex : exists a', add_semantics_to_act c36_analyzer c36_example = Ok a'.
Proof. exact (C36_succeeds _ _ c36_built c36_unparsed (proj2 c36_readable) (proj1 c36_readable)). Qed.
(* A text of which nothing is left makes the whole act fail. *)
Theorem C36_empty_text_refuted : forall an t, In t [[]; u8 ";"; u8 ", és"] ->
  built_act (c36_act [c36_leaf KParagraph (u8 "1") t] []) /\
  add_semantics_to_act an (c36_act [c36_leaf KParagraph (u8 "1") t] []) = Err IndexError.
Proof.
  intros an t H. split; [build_act|]. cbn [In] in H.
  repeat (destruct H as [<-|H]; [vm_compute; reflexivity|]). destruct H.
Qed.
Print Assumptions C36_empty_text_refuted.

(** C37: references are stored in the order of their positions, which are inside the text of the
    element (or reach over the full stop added to it). *)
Theorem C37_positions : forall an a a' e refs, sane_spans an -> built_act a -> unparsed_act a ->
  add_semantics_to_act an a = Ok a' -> In e (carriers_of a') -> m_outgoing (s_meta e) = Some refs ->
  StronglySorted position_le refs /\
  forall r, In r refs -> exists s, own_text e = Some s /\ 0 <= or_start r < or_end r /\ or_end r <= Z.of_nat (List.length s) + 1.
Proof. exact act_positions. Qed.
Print Assumptions C37_positions.
Example C37_positions_ex : sane_spans c36_analyzer.
Proof.
  intros s a r [= <-]. cbn [an_references]. destruct (find_sub (u8 "Ptk.") s); intros H; [|destruct H].
  destruct H as [<-|[]]. cbn. lia.
Qed.
(* The bound is not the length of the text. *)
Definition c37_whole : analyzer := fun s =>
  match s with [] => None | _ => Some (mk_analysis [mk_outgoing 0 (Z.of_nat (List.length s)) (c36_ref (u8 "Ptk."))] [] []) end.
Theorem C37_tighter_refuted : exists an a a' e r s, sane_spans an /\ built_act a /\ unparsed_act a /\
  add_semantics_to_act an a = Ok a' /\ In e (carriers_of a') /\ m_outgoing (s_meta e) = Some [r] /\
  own_text e = Some s /\ or_end r = Z.of_nat (List.length s) + 1.
Proof.
  set (a := c36_act [c36_leaf KParagraph (u8 "1") (u8 "A 2. §")] []).
  destruct (add_semantics_to_act c37_whole a) as [a'|] eqn:E; [|vm_compute in E; discriminate].
  pose proof E as E'. vm_compute in E'. injection E' as <-.
  do 3 eexists. eexists (mk_sae _ _ _ _ _ _ _). exists (mk_outgoing 0 7 (c36_ref (u8 "Ptk."))), (u8 "A 2. §").
  split; [|split; [|split; [|split; [exact E|]]]].
  - intros s x r. unfold c37_whole. destruct s; [discriminate|]. intros [= <-] [<-|[]]. cbn [or_start or_end List.length]. lia.
  - unfold a. build_act.
  - repeat constructor.
  - split; [now left|]. repeat split.
Qed.
Print Assumptions C37_tighter_refuted.

(** C38: an abbreviation stands for what the latest reading before it, or its own, introduced. *)
(* The elements are read one after another; each stores references that are resolved by what its
   own reading and the ones before it introduced, the last introduction counting. *)
Theorem C38_stored : forall an a a', unparsed_act a -> add_semantics_to_act an a = Ok a' ->
  exists known, stored_all an [] (readings_of a) (map s_meta (carriers_of a')) known.
Proof. exact act_stored. Qed.
Print Assumptions C38_stored.
(* What comes later in the act has no effect on what comes earlier. *)
Theorem C38_later : forall an a a' l1 l2, act_children a = l1 ++ l2 -> add_semantics_to_act an a = Ok a' ->
  exists l1' l2', act_children a' = l1' ++ l2' /\ add_semantics_to_act an (evolve_act a l1) = Ok (evolve_act a l1').
Proof. intros an a a' l1 l2. exact (act_prefix an a l1 l2 a'). Qed.
Print Assumptions C38_later.
Definition c38_old := c36_leaf KParagraph (u8 "1") (u8 "Az 1959. évi IV. törvény (Ptk.) is").
Definition c38_acts (ps : list sae) := match add_semantics_to_act c36_analyzer (c36_act ps []) with
  | Ok a => map (fun e => match m_outgoing (s_meta e) with Some [r] => r_act (or_reference r) | _ => None end) (carriers_of a)
  | Err _ => [] end.
Example C38_ex : let use i := c36_leaf KParagraph i (u8 "A Ptk. 1. §-a szerint.") in
  c38_acts [use (u8 "1"); c38_old; use (u8 "2"); nth 0 c36_first c38_old; use (u8 "3")] =
  [Some (u8 "Ptk."); Some (u8 "1959. évi IV. törvény"); Some (u8 "1959. évi IV. törvény");
   Some (u8 "2013. évi V. törvény"); Some (u8 "2013. évi V. törvény")].
Proof. reflexivity. Qed.
(* Document order is not the order that counts: the introduction of a list is read again with each
   of its points, and what it introduces overrides an introduction in an earlier point. *)
Definition c38_list := [mk_sae KParagraph (Some (u8 "1")) None (Some (u8 "A 2013. évi V. törvény (Ptk.)"))
  (Some [ChSae (c36_leaf KAlphabeticPoint (u8 "a") (u8 "az 1959. évi IV. törvény (Ptk.) és"));
         ChSae (c36_leaf KAlphabeticPoint (u8 "b") (u8 "a Ptk. 1. §-a"))]) None NO_META].
Definition c38_last : analyzer := fun s => Some (mk_analysis
  (match find_sub (u8 "Ptk. ") s with
   | Some n => [mk_outgoing (Z.of_nat n) (Z.of_nat n + 4) (c36_ref (u8 "Ptk."))]
   | None => []
   end) []
  (match c36_analyzer s with Some a => an_abbreviations a | None => [] end)).
Theorem C38_document_order_refuted : exists a a' before point b r, built_act a /\ unparsed_act a /\
  add_semantics_to_act c38_last a = Ok a' /\ carriers_of a' = before ++ [point; b] /\
  m_abbreviations (s_meta point) = Some [mk_abbreviation (u8 "Ptk.") (u8 "2013. évi V. törvény"); mk_abbreviation (u8 "Ptk.") (u8 "1959. évi IV. törvény")] /\
  own_text b = Some (u8 "a Ptk. 1. §-a") /\ m_outgoing (s_meta b) = Some [r] /\ r_act (or_reference r) = Some (u8 "2013. évi V. törvény").
Proof.
  destruct (add_semantics_to_act c38_last (c36_act c38_list [])) as [a'|] eqn:E; [|vm_compute in E; discriminate].
  pose proof E as E'. vm_compute in E'. injection E' as <-.
  do 2 eexists. eexists [_]. do 3 eexists.
  split; [|split; [|split; [exact E|]]].
  - unfold c38_list. build_act.
  - repeat constructor.
  - split; [reflexivity|]. vm_compute. repeat split.
Qed.
Print Assumptions C38_document_order_refuted.

(** C39: block amendments replace one quoted block by the amendment it contains, or nothing. *)
Definition converted (p p' : sae) : Prop :=
  p' = p \/
  exists lines intro actual context outro position b,
    s_children p = Some [ChQuoted lines] /\ s_intro p = Some intro /\
    (splits_into intro actual (match context with Some c => c | None => [] end) /\ context <> None /\
       outro = match s_wrap_up p with Some w => Some (py_slice 1 (-1) w) | None => None end \/
     (forall a c, ~ with_context intro a c) /\ actual = intro /\ context = None /\ outro = None) /\
    parse_block_amendment position context outro lines = Ok b /\
    p' = mk_sae (s_kind p) (s_identifier p) (s_text p) (Some actual) (Some [ChSae b]) (Some []) (s_meta p).
Definition converted_child (c c' : act_child) : Prop :=
  match c, c' with
  | AStruct e, AStruct e' => e' = e
  | AArticle x, AArticle x' => a_identifier x' = a_identifier x /\ a_title x' = a_title x /\ Forall2 converted (a_paragraphs x) (a_paragraphs x')
  | _, _ => False
  end.
Lemma forall2_impl {A B} (R S : A -> B -> Prop) l m : (forall a b, R a b -> S a b) -> Forall2 R l m -> Forall2 S l m.
Proof. intros H. induction 1; auto. Qed.
Theorem C39_converted : forall an a a', block_parse_act an a = Ok a' ->
  act_identifier a' = act_identifier a /\ act_publication_date a' = act_publication_date a /\ act_subject a' = act_subject a /\
  act_preamble a' = act_preamble a /\ Forall2 converted_child (act_children a) (act_children a').
Proof.
  intros an a a' H. unfold block_parse_act in H. apply bind_ok in H as (cs & M & H). injection H as <-.
  repeat (split; [reflexivity|]). cbn [evolve_act act_children].
  apply mapM_ok in M. eapply forall2_impl; [|exact M]. clear. intros [e|x] c' H.
  - injection H as <-. reflexivity.
  - apply bind_ok in H as (y & H & E). injection E as <-. unfold block_parse_article in H.
    apply bind_ok in H as (ps & M & H). apply new_article_ok in H as [-> _]. cbn. repeat (split; [reflexivity|]).
    apply mapM_ok in M. eapply forall2_impl; [|exact M]. intros p p' H. exact (block_paragraph_inv an p p' H).
Qed.
Print Assumptions C39_converted.
(* paragraphs without quoted blocks stay whatever the analyser does *)
Theorem C39_others : forall an p, well_formed p -> (forall lines, ~ (exists cs, s_children p = Some cs /\ In (ChQuoted lines) cs)) ->
  block_parse_paragraph an p = Ok p.
Proof. exact block_paragraph_total_other. Qed.
Print Assumptions C39_others.
Definition c39_position := mk_ref (Some (u8 "2013. évi V. törvény")) (RId (u8 "3")) RNone RNone RNone.
Definition c39_analyzer (r : reference) : analyzer := fun s =>
  if contains_sub (u8 "helyébe") s then Some (mk_analysis [] [BlockAmendment (ARef r) false] []) else Some (mk_analysis [] [] []).
Definition c39_quoted intro lines wrap := mk_sae KParagraph None None (Some intro) (Some [ChQuoted lines]) wrap NO_META.
Definition c39_lines := map (text_line 20) [u8 "3. § Az első."; u8 "4. § A másik „idéz"; u8 "5. § Belül”."; u8 "5. § Harmadik."].
Definition c39_article i t := ChArticle (mk_article (u8 i) None [mk_sae KParagraph None (Some t) None None None NO_META]).
Example C39_ex :
  block_parse_paragraph (c39_analyzer c39_position)
    (c39_quoted (u8 "A Ptk. 3. §-a helyébe a következő lép: (A törvény)") c39_lines (Some (u8 "(zárás)"))) =
  Ok (mk_sae KParagraph None None (Some (u8 "A Ptk. 3. §-a helyébe a következő lép:"))
    (Some [ChSae (mk_sae KBlockAmendmentContainer None None (Some (u8 "A törvény"))
      (Some [c39_article "3" (u8 "Az első."); c39_article "4" (u8 "A másik „idéz 5. § Belül”."); c39_article "5" (u8 "Harmadik.")])
      (Some (u8 "zárás")) NO_META)]) (Some []) NO_META).
Proof. vm_compute. reflexivity. Qed.
(* Blocks that cannot be parsed are not left alone: the conversion of the whole act fails, since the
   error is not of the class that is caught. *)
Theorem C39_failure_refuted : exists an p other, well_formed p /\
  block_parse_paragraph an p = Err BlockAmendmentStructureParsingError /\
  block_parse_act an (c36_act [other] [p]) = Err BlockAmendmentStructureParsingError /\
  is_sub_article_parsing_error BlockAmendmentStructureParsingError = false.
Proof.
  exists (c39_analyzer c39_position), (c39_quoted (u8 "A 3. § helyébe ez lép:") [text_line 20 (u8 "Nem szakasz.")] None), c38_old.
  split; [|vm_compute; auto].
  assert (H : new_sae KParagraph None None (Some (u8 "A 3. § helyébe ez lép:")) (Some [ChQuoted [text_line 20 (u8 "Nem szakasz.")]]) None NO_META
    = Ok (c39_quoted (u8 "A 3. § helyébe ez lép:") [text_line 20 (u8 "Nem szakasz.")] None)) by (vm_compute; reflexivity).
  apply new_sae_ok in H as [_ H]. exact H.
Qed.
Print Assumptions C39_failure_refuted.
(* and the text after a block is lost if the introduction names no context *)
Theorem C39_wrap_up_refuted : forall w, exists p' b,
  block_parse_paragraph (c39_analyzer c39_position) (c39_quoted (u8 "A 3. § helyébe ez lép:") [text_line 20 (u8 "3. § Szöveg.")] (Some w)) = Ok p' /\
  s_children p' = Some [ChSae b] /\ s_wrap_up b = None /\ s_wrap_up p' = Some [].
Proof. intros w. eexists. eexists. split; [vm_compute; reflexivity|]. repeat split. Qed.
Print Assumptions C39_wrap_up_refuted.

(** C54: after new elements are added to a parsed act, or some lose their semantic data, parsing it
    again gives what parsing from nothing gives. *)
Theorem C54_incremental : forall an a full part, unparsed_act a -> add_semantics_to_act an a = Ok full ->
  built_act part -> older_act full part -> add_semantics_to_act an part = Ok full.
Proof. exact act_rerun. Qed.
Print Assumptions C54_incremental.
Definition c54_part (full : act) := evolve_act full
  (match act_children full with c :: x :: rest => c :: bare_child x :: rest | l => l end).
Example C54_incremental_ex : exists full, add_semantics_to_act c36_analyzer c36_example = Ok full /\
  built_act (c54_part full) /\ older_act full (c54_part full) /\ c54_part full <> full /\ c54_part full <> c36_example.
Proof.
  destruct (add_semantics_to_act c36_analyzer c36_example) as [full|] eqn:E; [|vm_compute in E; discriminate].
  pose proof E as E'. vm_compute in E'. injection E' as <-.
  eexists. split; [reflexivity|]. split; [|split; [|split]].
  - match goal with |- built_act ?a => let b := eval vm_compute in a in change (built_act b) end. build_act.
  - split; [vm_compute; reflexivity|].
    match goal with |- Forall2 _ ?a ?b => let a' := eval vm_compute in a in let b' := eval vm_compute in b in change (Forall2 older_meta a' b') end.
    repeat (apply Forall2_cons; [(left; reflexivity) + (right; reflexivity)|]). apply Forall2_nil.
  - vm_compute. discriminate.
  - vm_compute. discriminate.
Qed.
(** Once an element that had no semantic data introduces an abbreviation, the semantic data already
    present in the later articles plays no role. *)
Theorem C54_after_change : forall an a b a' l1 l2 l3 l1',
  act_children a = l1 ++ l2 -> act_children b = l1 ++ l3 -> bare_act a = bare_act b ->
  built_act (evolve_act a l1) ->
  add_semantics_to_act an (evolve_act a l1) = Ok (evolve_act a l1') ->
  (exists i x x' y ys, nth_error (carriers_of (evolve_act a l1)) i = Some x /\ nth_error (carriers_of (evolve_act a l1')) i = Some x' /\
     m_semantic (s_meta x) = None /\ m_abbreviations (s_meta x') = Some (y :: ys)) ->
  add_semantics_to_act an a = Ok a' -> add_semantics_to_act an b = Ok a'.
Proof. exact act_after_change. Qed.
Print Assumptions C54_after_change.
(* The second article has semantic data that mentions nothing; it is replaced. *)
Definition c54_stale := [mk_sae KParagraph (Some (u8 "1")) (Some (u8 "A Ptk. 1. §-a szerint.")) None None None (mk_meta (Some []) (Some []) (Some []))].
Example C54_after_change_ex : exists l1', 
  let a := c36_act c36_first (map bare c54_stale) in let b := c36_act c36_first c54_stale in
  let l1 := firstn 2 (act_children a) in
  a <> b /\ act_children a = l1 ++ skipn 2 (act_children a) /\ act_children b = l1 ++ skipn 2 (act_children b) /\ bare_act a = bare_act b /\
  built_act (evolve_act a l1) /\
  add_semantics_to_act c36_analyzer (evolve_act a l1) = Ok (evolve_act a l1') /\
  (exists i x x' y ys, nth_error (carriers_of (evolve_act a l1)) i = Some x /\ nth_error (carriers_of (evolve_act a l1')) i = Some x' /\
     m_semantic (s_meta x) = None /\ m_abbreviations (s_meta x') = Some (y :: ys)) /\
  exists a', add_semantics_to_act c36_analyzer a = Ok a' /\ add_semantics_to_act c36_analyzer b = Ok a'.
Proof.
  eexists. cbv zeta. split; [discriminate|]. split; [reflexivity|]. split; [reflexivity|]. split; [reflexivity|].
  split; [cbn [c36_act act_children firstn evolve_act]; unfold evolve_act, c36_first; build_act|].
  split; [unfold evolve_act; vm_compute; reflexivity|].
  split; [exists 0%nat; do 4 eexists; vm_compute; repeat split|].
  eexists. split; vm_compute; reflexivity.
Qed.
(* An element that was edited, and lost its semantic data thereby, is another matter: references in
   the elements that were kept are still resolved by what it introduced before. *)
Definition c54_paragraphs (a : act) := flat_map a_paragraphs (act_articles a).
Definition c54_use := c36_leaf KParagraph (u8 "2") (u8 "A Ptk. 1. §-a szerint.").
Theorem C54_edited_refuted : exists an before full edited after,
  built_act before /\ unparsed_act before /\ add_semantics_to_act an before = Ok full /\
  (exists p q rest, c54_paragraphs full = p :: rest /\ c54_paragraphs edited = q :: rest /\ s_meta q = NO_META) /\
  built_act edited /\ add_semantics_to_act an edited = Ok after /\
  exists fresh, add_semantics_to_act an (bare_act edited) = Ok fresh /\ fresh <> after.
Proof.
  set (before := c36_act [nth 0 c36_first c38_old; c54_use] []).
  destruct (add_semantics_to_act c36_analyzer before) as [full|] eqn:E; [|vm_compute in E; discriminate].
  pose proof E as E'. vm_compute in E'. injection E' as <-.
  exists c36_analyzer, before. eexists. exists (c36_act [c36_leaf KParagraph (u8 "1") (u8 "Semmi.");
    mk_sae KParagraph (Some (u8 "2")) (s_text c54_use) None None None
      (mk_meta (Some []) (Some [mk_outgoing 2 6 (mk_ref c36_full RNone RNone RNone RNone)]) (Some []))] []).
  eexists. split; [unfold before, c36_first; cbn [nth]; unfold c54_use; build_act|].
  split; [repeat constructor|]. split; [exact E|]. split.
  { do 3 eexists. split; [reflexivity|]. split; reflexivity. }
  split; [build_act|]. split; [vm_compute; reflexivity|].
  eexists. split; [vm_compute; reflexivity|]. discriminate.
Qed.
Print Assumptions C54_edited_refuted.

(** C55: the lines of a block amendment are cut where the next identifier starts a line outside
    quotes, and every block is parsed on its own. *)
Theorem C55_articles : forall act i ci co lines s, lines <> [] ->
  parse_block_amendment (ARef (mk_ref act (RId i) RNone RNone RNone)) ci co lines = Ok s ->
  exists bs articles, s = mk_sae KBlockAmendmentContainer None None ci (Some (map ChArticle articles)) co NO_META /\ concat bs = lines /\
    blocks (fun l i => article_extract l = Some i) (fun i j => article_is_next_identifier i j = Ok true) [] i bs /\
    Forall2 (fun ls a => parse_article ls false = Ok a) bs articles.
Proof.
  intros act i ci co lines s NE H. apply (amendment_blocks _ _ _ _ _ article_block i) in H as (bs & cs & -> & C & B & F); [|exact NE|reflexivity].
  assert (G : exists articles, cs = map ChArticle articles /\ Forall2 (fun ls a => parse_article ls false = Ok a) bs articles).
  { clear -F. induction F as [|b c bs cs P _ (l & -> & F)]; [exists []; auto|].
    cbn in P. apply bind_ok in P as (a & P & E). injection E as <-. exists (a :: l). auto. }
  destruct G as (l & -> & F'). exists bs, l. auto.
Qed.
Print Assumptions C55_articles.
Theorem C55_paragraphs : forall act i ci co a lines s, lines <> [] ->
  parse_block_amendment (ARef (mk_ref act a (RId i) RNone RNone)) ci co lines = Ok s ->
  exists bs paragraphs, s = mk_sae KBlockAmendmentContainer None None ci (Some (map ChSae paragraphs)) co NO_META /\ concat bs = lines /\
    blocks (fun l i => extract_identifier paragraph_conf l = Some i) (fun i j => sae_is_next_identifier KParagraph i j = Ok true) [] i bs /\
    Forall2 (fun ls p => parse_paragraph ls false = Ok p) bs paragraphs.
Proof.
  intros act i ci co a lines s NE H.
  apply (amendment_blocks _ _ _ _ _ (sae_block paragraph_conf paragraph_subs) i) in H as (bs & cs & -> & C & B & F); [|exact NE|reflexivity].
  assert (G : exists ps, cs = map ChSae ps /\ Forall2 (fun ls p => parse_paragraph ls false = Ok p) bs ps).
  { clear -F. induction F as [|b c bs cs P _ (l & -> & F)]; [exists []; auto|].
    cbn in P. apply bind_ok in P as (x & P & E). injection E as <-. exists (x :: l). auto. }
  destruct G as (l & -> & F'). exists bs, l. auto.
Qed.
Print Assumptions C55_paragraphs.
Example C55_ex : exists s bs, parse_block_amendment (ARef c39_position) None None c39_lines = Ok s /\
  map (@List.length line) bs = [1; 2; 1]%nat /\ concat bs = c39_lines /\
  exists cs, s_children s = Some cs /\ List.length cs = 3%nat.
Proof.
  eexists. exists [firstn 1 c39_lines; firstn 2 (skipn 1 c39_lines); skipn 3 c39_lines].
  split; [vm_compute; reflexivity|]. split; [reflexivity|]. split; [reflexivity|]. eexists. split; reflexivity.
Qed.
(* The number of the first block is not compared with the one that the amendment names. *)
Theorem C55_first_refuted : exists r lines s a rest, r_article r = RId (u8 "3") /\
  parse_block_amendment (ARef r) None None lines = Ok s /\ s_children s = Some (ChArticle a :: rest) /\ a_identifier a = u8 "7".
Proof.
  exists c39_position, (map (text_line 20) [u8 "7. § Az első."; u8 "4. § A másik."]). do 3 eexists.
  split; [reflexivity|]. split; [vm_compute; reflexivity|]. split; reflexivity.
Qed.
Print Assumptions C55_first_refuted.
