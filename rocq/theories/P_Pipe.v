(* C60: from the gazette to acts. *)
From Verif Require Import PyBase PyBaseFacts IdModel LineModel DateModel RefModel TreeModel TreeSpec StructModel StructSpec SemModel SemSpec FixupModel GazModel CacheModel ExtModel ExtSpec.
From Verif Require Import LineSpec StructProofs StructProofs2 StructProofs3 StructProofs4 StructProofs5 SemProofs PipeModel PipeSpec PipeProofs P_Struct P_Sem P_Gaz.
From Coq Require Import Permutation.
Local Open Scope Z_scope.

(** C60: extraction always ends, and turns each law of the gazettes, the last one first, into one act with the
    name, subject, date and text of the law. *)
Theorem C60_ends : forall e classes objects workers order, Permutation objects order ->
  exists fuel g, do_extraction (hun_world e) classes fuel objects workers order = Some g.
Proof. exact extraction_ends. Qed.
Print Assumptions C60_ends.
(* What comes out at each step, and where it stops, one after the other ... *)
Theorem C60_steps : forall e s objects fuel g, Forall before_acts objects -> do_work (hun_world e) [CRaw] fuel objects = Some g ->
  exists laws g', g_items g = map ORaw laws /\ reads_all e s (g_end g) laws g' /\ exists fuel', do_work (hun_world e) [step_class s] fuel' objects = Some g'.
Proof. exact work_steps. Qed.
Print Assumptions C60_steps.
(* ... and with several workers, if all goes well *)
Theorem C60_workers : forall e s objects workers order l fuel, Forall before_acts objects -> Permutation objects order ->
  do_extraction (hun_world e) [step_class s] fuel objects workers order = Some (mk_gen l None) ->
  exists laws fuel', do_extraction (hun_world e) [CRaw] fuel' objects workers order = Some (mk_gen (map ORaw laws) None) /\
    Forall2 (fun x o => reads e x s (Ok o)) laws l.
Proof. exact extraction_steps. Qed.
Print Assumptions C60_workers.
Theorem C60_gazettes : forall e s ps laws, Forall2 gazette_laws ps laws ->
  exists g fuel, reads_all e s None (rev (concat laws)) g /\ do_work (hun_world e) [step_class s] fuel (map OPages ps) = Some g.
Proof. exact gazettes_reversed. Qed.
Print Assumptions C60_gazettes.
Theorem C60_named : forall e x s o, reads e x s (Ok o) -> named o (lw_identifier x) (lw_subject x) (lw_date x).
Proof. exact reads_named. Qed.
Print Assumptions C60_named.
(* The text of the act is the text of the law after its fixups; quoted blocks may be read as amendments. *)
Theorem C60_text : forall e x a, reads e x Full (Ok (OAct a)) ->
  exists lines, do_all_fixups (e_fixups e) (lw_identifier x) (lw_body x) = Ok lines /\
    (Forall fine lines -> exists preamble body cs, lines = preamble ++ body /\ text_in preamble (act_preamble a) /\
       body_in true (fun _ => u8 "0") body cs /\ cs <> [] /\
       Forall2 (fun c c' => exists b, converted_child c b /\ bare_child b = bare_child c') cs (act_children a)).
Proof.
  intros e x a R. inversion R as [| | | | | |b c RB S|]; subst. inversion RB as [| | | |s b' RS B| | |]; subst. inversion RS as [| |lines F s' P| | | | |]; subst.
  exists lines. split; [exact F|]. intros Fi. destruct (C29_act _ _ _ _ _ Fi P) as (preamble & body & E & T & I & N & _).
  destruct (C39_converted _ _ _ B) as (_ & _ & _ & E2 & F2). pose proof (C36_only_adds _ _ _ S) as O.
  exists preamble, body, (act_children s). split; [exact E|]. split; [|split; [exact I|split; [exact N|]]].
  - assert (X : act_preamble a = act_preamble b) by (change (act_preamble a) with (act_preamble (bare_act a)); rewrite O; reflexivity). rewrite X, E2. exact T.
  - assert (X : map bare_child (act_children a) = map bare_child (act_children b)) by (change (act_children (bare_act a) = act_children (bare_act b)); rewrite O; reflexivity).
    clear - F2 X. revert X. generalize (act_children a). induction F2 as [|c c1 l l1 C _ IH]; intros [|c2 l2] X; try discriminate; [constructor|].
    injection X as X1 X2. constructor; [|exact (IH _ X2)]. exists c1. split; [exact C|symmetry; exact X1].
Qed.
Print Assumptions C60_text.

(* A gazette with two laws.  The analyser finds nothing in any text; a fixup of the second one. *)
Definition c60_law (id : pystr) : list line :=
  map (text_line 20) [id; u8 "a példáról*"; u8 "1. § Ez az."; []; u8 "Áder János s. k., Kövér László s. k.,"; u8 "köztársasági elnök az Országgyűlés elnöke"].
Definition c60_pages : list page :=
  [ [text_line 20 (u8 "MAGYAR KÖZLÖNY 71. szám"); text_line 20 (u8 "-"); text_line 20 (u8 "A MAGYAR KÖZTÁRSASÁG HIVATALOS LAPJA"); text_line 20 (u8 "2011. június 28., kedd"); text_line 20 (u8 "--");
     text_line 20 (u8 "Tartalomjegyzék")];
    [text_line 20 (u8 "2011. június 28."); EMPTY_LINE] ++ [text_line 20 (u8 "II. Törvények"); EMPTY_LINE] ++ c60_law (u8 "2011. évi CV. törvény");
    [text_line 20 (u8 "2011. június 28."); EMPTY_LINE] ++ c60_law (u8 "2011. évi CVI. törvény") ].
Definition c60_env (fixups : registry) : env :=
  mk_env (fun _ _ => mk_gen [] None) (fun _ => mk_gen [] None) fixups (fun _ => Some (mk_analysis [] [] [])).
Definition c60_fixups : registry := [(u8 "2011. évi CVI. törvény", [replace_line_content (u8 "1. § Ez az.") (u8 "1. § Ez az az.") None])].
Definition c60_see (g : option (gen obj)) :=
  match g with
  | Some g => (map (fun o => match o with
      | OAct a => (act_identifier a, act_subject a, map (fun a => (a_identifier a, map own_text (a_paragraphs a))) (articles_of (act_children a)))
      | ORaw x => (lw_identifier x, lw_subject x, [])
      | _ => ([], [], []) end) (g_items g), g_end g)
  | None => ([], None)
  end.
Example C60_ex :
  c60_see (do_work (hun_world (c60_env c60_fixups)) [CRaw] 100 [OPages c60_pages]) =
    ([(u8 "2011. évi CVI. törvény", u8 "a példáról", []); (u8 "2011. évi CV. törvény", u8 "a példáról", [])], None) /\
  c60_see (do_work (hun_world (c60_env c60_fixups)) [CAct] 100 [OPages c60_pages]) =
    ([(u8 "2011. évi CVI. törvény", u8 "a példáról", [(u8 "1", [Some (u8 "Ez az az.")])]);
      (u8 "2011. évi CV. törvény", u8 "a példáról", [(u8 "1", [Some (u8 "Ez az.")])])], None).
Proof. split; vm_compute; reflexivity. Qed.
Example C60_text_ex :
  let x := mk_law (u8 "2345. évi I. törvény") (mk_date 2345 6 7) (u8 "Tárgy") c29_act_lines in
  Forall fine c29_act_lines /\ exists a, reads (c60_env c60_fixups) x Full (Ok (OAct a)) /\ act_preamble a = u8 "Az Országgyűlés törvényt alkot." /\
    map (fun c => match c with AArticle a => a_identifier a | AStruct e => se_title e end) (act_children a) = [u8 "AZ ELSŐ"; u8 "1"; []; u8 "2"; u8 "3"].
Proof.
  intros x. split; [fine_lines|]. set (an := e_analyzer (c60_env c60_fixups)).
  destruct (c29_parse c29_act_lines) as [s|] eqn:E1; [|vm_compute in E1; discriminate]. destruct (block_parse_act an s) as [b|] eqn:E2; [|vm_compute in E1; injection E1 as <-; vm_compute in E2; discriminate].
  destruct (add_semantics_to_act an b) as [a|] eqn:E3; [|vm_compute in E1; injection E1 as <-; vm_compute in E2; injection E2 as <-; vm_compute in E3; discriminate].
  exists a. split.
  - apply (rd_full _ _ b a); [|exact E3]. apply (rd_block _ _ s b); [|exact E2]. apply (rd_structure _ _ c29_act_lines); [vm_compute; reflexivity|exact E1].
  - vm_compute in E1. injection E1 as <-. vm_compute in E2. injection E2 as <-. vm_compute in E3. injection E3 as <-. split; reflexivity.
Qed.

(* One law that cannot be read keeps the laws before it, and all the gazettes before it, from coming out. *)
Theorem C60_others_refuted : ~ forall e objects fuel g, Forall before_acts objects -> do_work (hun_world e) [CRaw] fuel objects = Some g ->
  forall x o, In (ORaw x) (g_items g) -> reads e x Full (Ok o) -> exists fuel' g', do_work (hun_world e) [CAct] fuel' objects = Some g' /\ In o (g_items g').
Proof.
  intros H. set (w := c60_env [(u8 "2011. évi CVI. törvény", [delete_line (u8 "1. § Ez az.")])]).
  set (good := mk_law (u8 "2345. évi I. törvény") (mk_date 2345 6 7) (u8 "Tárgy") c29_act_lines).
  set (bad := mk_law (u8 "2345. évi II. törvény") (mk_date 2345 6 7) (u8 "Tárgy") []).
  destruct C60_text_ex as (_ & a & R & _).
  assert (R' : reads w good Full (Ok (OAct a))).
  { inversion R as [| | | | | |b c RB S|]; subst. inversion RB as [| | | |s b' RS B| | |]; subst. inversion RS as [| |lines F s' P| | | | |]; subst.
    apply (rd_full _ _ b a); [|exact S]. apply (rd_block _ _ s b); [|exact B]. apply (rd_structure _ _ lines); [exact F|exact P]. }
  destruct (H w [ORaw good; ORaw bad] 5%nat (mk_gen [ORaw bad; ORaw good] None)) with (x := good) (o := OAct a) as (f & g & W & I); [repeat constructor|reflexivity|right; left; reflexivity|exact R'|].
  assert (W2 : do_work (hun_world w) [CAct] 5 [ORaw good; ORaw bad] = Some (mk_gen [] (Some ActParsingError))) by (vm_compute; reflexivity).
  pose proof (ExtProofs.work_det _ _ _ _ _ _ _ W W2) as ->. exact I.
Qed.
Print Assumptions C60_others_refuted.
