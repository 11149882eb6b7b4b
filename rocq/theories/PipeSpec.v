(* From the gazette to acts (C60): what becomes of a law, step by step. *)
From Verif Require Import PyBase IdModel LineModel DateModel RefModel TreeModel StructModel SemModel FixupModel GazModel CacheModel ExtModel PipeModel.
Local Open Scope Z_scope.

(* the extraction steps that can be chosen, with their classes *)
Inductive step := RawAct | StructureOnly | BaOnly | Full.
Definition step_class (s : step) : cls := match s with RawAct => CRaw | StructureOnly => CStruct | BaOnly => CBlock | Full => CAct end.
(* [reads e x s r]: a law that is read up to a step comes out as r, or fails *)
Inductive reads (e : env) (x : law_text) : step -> res obj -> Prop :=
| rd_raw : reads e x RawAct (Ok (ORaw x))
| rd_fixup_error s err : s <> RawAct -> do_all_fixups (e_fixups e) (lw_identifier x) (lw_body x) = Err err -> reads e x s (Err err)
| rd_structure body : do_all_fixups (e_fixups e) (lw_identifier x) (lw_body x) = Ok body ->
    forall a, parse_act (lw_identifier x) (lw_date x) (lw_subject x) body = Ok a -> reads e x StructureOnly (Ok (OStruct a))
| rd_structure_error s body err : s <> RawAct -> do_all_fixups (e_fixups e) (lw_identifier x) (lw_body x) = Ok body ->
    parse_act (lw_identifier x) (lw_date x) (lw_subject x) body = Err err -> reads e x s (Err err)
| rd_block a b : reads e x StructureOnly (Ok (OStruct a)) -> block_parse_act (e_analyzer e) a = Ok b -> reads e x BaOnly (Ok (OBlock b))
| rd_block_error s a err : s = BaOnly \/ s = Full -> reads e x StructureOnly (Ok (OStruct a)) -> block_parse_act (e_analyzer e) a = Err err -> reads e x s (Err err)
| rd_full b c : reads e x BaOnly (Ok (OBlock b)) -> add_semantics_to_act (e_analyzer e) b = Ok c -> reads e x Full (Ok (OAct c))
| rd_full_error b err : reads e x BaOnly (Ok (OBlock b)) -> add_semantics_to_act (e_analyzer e) b = Err err -> reads e x Full (Err err).
(* laws read one after the other, up to the first one that fails; [last]: how it ends if none fails *)
Inductive reads_all (e : env) (s : step) (last : option exn) : list law_text -> gen obj -> Prop :=
| ra_nil : reads_all e s last [] (mk_gen [] last)
| ra_cons x xs o g : reads e x s (Ok o) -> reads_all e s last xs g -> reads_all e s last (x :: xs) (mk_gen (o :: g_items g) (g_end g))
| ra_error x xs err : reads e x s (Err err) -> reads_all e s last (x :: xs) (mk_gen [] (Some err)).

(* what comes before laws in the gazette, or is a law *)
Definition before_acts (o : obj) : Prop := match o with OStruct _ | OBlock _ | OAct _ => False | _ => True end.
(* the laws of a gazette in the order in which they are printed, if no extractor fails *)
Inductive gazette_laws : list page -> list law_text -> Prop :=
| gl_other pages : header_extractor pages = mk_gen [] None -> gazette_laws pages []
| gl_laws pages k ss ls : header_extractor pages = mk_gen [k] None -> section_extractor k = mk_gen ss None ->
    Forall2 (fun s l => law_extractor s = mk_gen l None) ss ls -> gazette_laws pages (concat ls).
(* how an object is called *)
Definition named (o : obj) (identifier subject : pystr) (d : date) : Prop :=
  match o with
  | ORaw x => lw_identifier x = identifier /\ lw_subject x = subject /\ lw_date x = d
  | OStruct a | OBlock a | OAct a => act_identifier a = identifier /\ act_subject a = subject /\ act_publication_date a = d
  | _ => False
  end.
