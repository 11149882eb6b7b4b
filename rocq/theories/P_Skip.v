(* Property C71: what is missed by not running the grammar on every text, and what is stored about sentences. *)
From Coq Require Import Lia Permutation Sorted.
From Coq Require Import ZifyBool ZifyNat ZifyN.
From Verif Require Import PyBase PyBaseFacts NumModel IdModel DateModel LineModel RefModel RefSpec StructModel TreeModel TreeSpec SemModel SemSpec SemProofs GramModel GramSpec PegModel PegSpec PegSpec2 PegSpec3 PegSpec4 PegSpec5 PegProofs2 PegProofs37 PegProofs35 PegProofs42 P_Struct P_Sem P_Told P_Amends P_Changes P_Enforce.
Local Open Scope Z_scope.

(** C71: a text that is not too long and that the grammar is not run on has nothing more in it than references to
    acts and numbered points, and insertions of numbered points or of things larger than an article. *)
Theorem C71_missed : forall text a, grammar_analyzer text = Some a -> Z.of_nat (length text) <= 10000 -> ~ worth_reading text ->
  an_abbreviations a = [] /\ Forall minor_semantic (an_semantic a) /\ Forall (fun o => minor_reference (or_reference o)) (an_references a).
Proof. intros text a G L W. destruct (worth_or_minor _ _ G L) as [?|(_ & H)]; [contradiction|exact H]. Qed.
Print Assumptions C71_missed.
(* Amendments, repeals, days of entering into force, and introductions of abbreviations are never missed. *)
Theorem C71_noticed : forall text refs semantics abbrs, sentence_written text refs semantics abbrs -> Z.of_nat (length text) <= 10000 ->
  abbrs <> [] \/ (exists o, In o refs /\ ~ minor_reference (or_reference o)) \/ (exists s, In s semantics /\ ~ minor_semantic s) -> worth_reading text.
Proof.
  intros text l s m W L C. destruct (worth_or_minor _ _ (sentence_found _ _ _ _ W) L) as [?|(_ & A & B & D)]; [assumption|exfalso].
  cbn [an_abbreviations an_semantic an_references] in *. rewrite Forall_forall in B, D. destruct C as [C|[(o & O & C)|(x & X & C)]]; [now apply C|exact (C (D _ O))|exact (C (B _ X))].
Qed.
Print Assumptions C71_noticed.
Theorem C71_changes : forall text refs semantics abbrs, Z.of_nat (length text) <= 10000 ->
  change_written text refs semantics abbrs \/ (enforcement_written text refs semantics /\ Forall possible semantics /\ abbrs = []) -> worth_reading text.
Proof.
  intros text l s m L W.
  assert (E : exists x, In x s /\ ~ minor_semantic x).
  { destruct W as [C|(W & _ & _)].
    - destruct C as [z u a x y m w refs q parts v e k _ _ _ _ C _ P _|z u a x y m i c d q b b' v t e k k' _ _ _ _ _ _ _ _ _ _ _ _ _|h z u a x y m w refs k _ _ _ _ _ _ C|h z u a x y m w refs q texts v k _ _ _ _ _ _ C _ P].
      + apply chain_some in C; destruct refs; [contradiction|]; destruct P; (eexists; split; [left; reflexivity|exact (fun H => H)]).
      + eexists; split; [left; reflexivity|exact (fun H => H)].
      + apply chain_some in C; destruct refs; [contradiction|]; (eexists; split; [left; reflexivity|exact (fun H => H)]).
      + apply chain_some in C; destruct refs; [contradiction|]; destruct P; (eexists; split; [left; reflexivity|exact (fun H => H)]).
    - destruct W as [h x xs t refs date w until v _ _ _ _ _]. destruct refs; (eexists; split; [left; reflexivity|exact (fun H => H)]). }
  refine (C71_noticed text l s m _ L (or_intror (or_intror E))). destruct W as [C|(W & P & ->)]; [now apply sen_change|now apply sen_enforcement].
Qed.
Print Assumptions C71_changes.
(* What is said in a sentence of an act is stored at it: the introduced abbreviations, the references that end in its
   own part of the text, and the amendments, with the abbreviations that are known there replaced. *)
Theorem C71_stored : forall a a' before rd rest before' m rest' s t refs sems abbrs,
  unparsed_act a -> add_semantics_to_act grammar_analyzer a = Ok a' ->
  readings_of a = before ++ rd :: rest -> map s_meta (carriers_of a') = before' ++ m :: rest' -> length before = length before' ->
  rd_text rd = Some s -> item_text s (rd_after rd) t ->
  worth_reading (rd_before rd ++ t ++ rd_after rd) -> sentence_written (rd_before rd ++ t ++ rd_after rd) refs sems abbrs ->
  exists f found sorted, meaning (flat_map (fun m => match m_abbreviations m with Some l => l | None => [] end) before' ++ abbrs) f /\
    kept_references f (length (rd_before rd)) (length t) refs found /\ Permutation found sorted /\ StronglySorted position_le sorted /\
    m = mk_meta (Some abbrs) (Some sorted) (Some (map (fun s => sem_resolve s f) sems)).
Proof. exact act_sentence. Qed.
Print Assumptions C71_stored.

(* Texts that say nothing to the quick check can say something to the grammar: these are not stored. *)
Definition c71_subtitle : pystr := u8 "A Btk. a következő 5. alcímmel egészül ki:".
Definition c71_points : pystr := u8 "Az 5. pont szerinti esetben a Btk. irányadó.".
Definition c71_block : act := c36_act [c39_quoted c71_subtitle [bold_line (u8 "5. Új alcím"); text_line 20 (u8 "12/A. § Az első.")] None] [].
Definition c71_inserted : structural_reference := mk_sref (Some (u8 "Btk.")) None None None None (Some (u8 "5")) None.
Lemma c71_dull : ~ worth_reading c71_subtitle /\ ~ worth_reading c71_points.
Proof. split; intros H; apply worth_spec in H as [_ H]; vm_compute in H; discriminate H. Qed.
Theorem C71_complete_refuted : exists text a b a', unparsed_act a /\ rd_text (hd (mk_reading None [] []) (readings_of a)) = Some text /\
  grammar_analyzer text = Some (mk_analysis [] [BlockAmendment (ASRef c71_inserted) true] []) /\
  block_parse_act grammar_analyzer a = Ok b /\ a <> b /\ unparsed_act b /\ add_semantics_to_act grammar_analyzer b = Ok a' /\
  forall e, In e (carriers_of a') -> m_semantic (s_meta e) = Some [].
Proof.
  exists c71_subtitle, c71_block. destruct (block_parse_act grammar_analyzer c71_block) as [b|] eqn:B; [|vm_compute in B; discriminate B].
  destruct (add_semantics_to_act grammar_analyzer b) as [a'|] eqn:A; [|vm_compute in B; injection B as <-; vm_compute in A; discriminate A].
  exists b, a'. vm_compute in B. injection B as <-. vm_compute in A. injection A as <-.
  split; [repeat constructor|]. split; [vm_compute; reflexivity|]. split; [vm_compute; reflexivity|]. split; [reflexivity|]. split; [discriminate|].
  split; [repeat constructor|]. split; [reflexivity|]. intros e E. cbn in E. repeat (destruct E as [<-|E]; [reflexivity|]). destruct E.
Qed.
Print Assumptions C71_complete_refuted.

(** Examples *)
Example C71_missed_ex : ~ worth_reading c71_points /\ exists refs, grammar_analyzer c71_points = Some (mk_analysis refs [] []) /\ length refs = 2%nat.
Proof. split; [exact (proj2 c71_dull)|]. eexists. split; [vm_compute; reflexivity|reflexivity]. Qed.
Example C71_noticed_ex : exists refs semantic abbrs, sentence_written c68_insertion refs [semantic] abbrs /\ abbrs <> [].
Proof. do 3 eexists. split; [apply sen_block; exact (proj2 C68_found_ex)|discriminate]. Qed.
Example C71_changes_ex : exists refs semantics, enforcement_written c70_next refs semantics /\ Forall possible semantics /\ Z.of_nat (length c70_next) <= 10000.
Proof. do 2 eexists. split; [exact (proj2 (proj2 (proj2 (proj2 C70_found_ex))))|]. split; [constructor; [split; exact Logic.I|constructor]|vm_compute; discriminate]. Qed.
(* The first paragraph introduces an abbreviation and amends; the second one uses it. *)
Definition c71_act : act := c36_act [c36_leaf KParagraph (u8 "1") c68_amendment; c36_leaf KParagraph (u8 "2") c71_points; c36_leaf KParagraph (u8 "3") c70_next] [].
Example C71_stored_ex : exists a', unparsed_act c71_act /\ add_semantics_to_act grammar_analyzer c71_act = Ok a' /\
  readings_of c71_act = [mk_reading (Some c68_amendment) [] []; mk_reading (Some c71_points) [] []; mk_reading (Some c70_next) [] []] /\
  item_text c70_next [] c70_next /\ worth_reading c70_next /\ sentence_written c70_next [] [EnforcementDate None (EDaysAfterPublication 8) None] [] /\
  map s_meta (carriers_of a') =
    [mk_meta (Some [mk_abbreviation (u8 "Ptk.") c68_act])
       (Some [mk_outgoing 32 52 (mk_ref (Some c68_act) RNone RNone RNone RNone); mk_outgoing 76 94 (mk_ref (Some c68_act) (RId (u8 "3")) (RId (u8 "1")) RNone RNone)])
       (Some [BlockAmendment (ARef (mk_ref (Some c68_act) (RId (u8 "3")) (RId (u8 "1")) RNone RNone)) false]);
     mk_meta (Some []) (Some []) (Some []); mk_meta (Some []) (Some []) (Some [EnforcementDate None (EDaysAfterPublication 8) None])].
Proof.
  destruct (add_semantics_to_act grammar_analyzer c71_act) as [a'|] eqn:A; [|vm_compute in A; discriminate A]. exists a'. vm_compute in A. injection A as <-.
  split; [repeat constructor|]. split; [reflexivity|]. split; [reflexivity|]. split; [apply fix_end_spec; vm_compute; reflexivity|]. split; [apply worth_spec; split; vm_compute; reflexivity|].
  split; [|vm_compute; reflexivity]. apply sen_enforcement; [exact (proj2 (proj2 (proj2 (proj2 C70_found_ex))))|]. constructor; [split; exact Logic.I|constructor].
Qed.
