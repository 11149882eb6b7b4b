(* Model of hun_law/extractors/act.py, and of the extractors that are registered in the whole program. *)
From Verif Require Import PyBase IdModel LineModel DateModel RefModel TreeModel StructModel SemModel FixupModel GazModel PdfModel D2oModel CacheModel ExtModel.
Local Open Scope Z_scope.

(* What is extracted from: kozlonyok_hu_downloader.py:27, file.py:19, pdf.py:153, magyar_kozlony.py:42, 72 and
   130, act.py:35 and 40, structure.py:674. *)
Inductive obj :=
| ODownload (year issue : Z)
| OFile (f : pdf_file)
| OPages (pages : list page)
| OIssue (k : issue)
| OSection (s : laws_section)
| ORaw (x : law_text)
| OStruct (a : act)
| OBlock (a : act)
| OAct (a : act).
Inductive cls := CDownload | CFile | CPages | CIssue | CSection | CRaw | CStruct | CBlock | CAct.
Definition class_of (o : obj) : cls :=
  match o with
  | ODownload _ _ => CDownload | OFile _ => CFile | OPages _ => CPages | OIssue _ => CIssue | OSection _ => CSection
  | ORaw _ => CRaw | OStruct _ => CStruct | OBlock _ => CBlock | OAct _ => CAct
  end.
Definition cls_eqb (a b : cls) : bool :=
  match a, b with
  | CDownload, CDownload | CFile, CFile | CPages, CPages | CIssue, CIssue | CSection, CSection
  | CRaw, CRaw | CStruct, CStruct | CBlock, CBlock | CAct, CAct => true
  | _, _ => false
  end.

(* What the extractors depend on: what the download of an issue and the reading of a file yield (their
   models with the file system and the net are in CacheModel), the registered fixups (fixups/common.py:26)
   and the grammatical analyser. *)
Record env := mk_env {
  e_download : Z -> Z -> gen pdf_file;
  e_lines : pdf_file -> gen (list page);
  e_fixups : registry;
  e_analyzer : analyzer
}.

(* a generator with one yield at its end *)
Definition one {A B} (f : A -> B) (r : res A) : gen B := match r with Ok a => mk_gen [f a] None | Err e => mk_gen [] (Some e) end.
Definition all_of {A B} (f : A -> B) (g : gen A) : gen B := mk_gen (map f (g_items g)) (g_end g).
(* act.py:44-49 *)
Definition to_structure_only (e : env) (raw : law_text) : gen obj :=
  one OStruct (fixupped_body <- do_all_fixups (e_fixups e) (lw_identifier raw) (lw_body raw) ;;
               parse_act (lw_identifier raw) (lw_date raw) (lw_subject raw) fixupped_body).
(* act.py:52-55 *)
Definition enrich_with_block_amendments (e : env) (a : act) : gen obj := one OBlock (block_parse_act (e_analyzer e) a).
(* act.py:58-61 *)
Definition enrich_with_other_semantic_data (e : env) (a : act) : gen obj := one OAct (add_semantics_to_act (e_analyzer e) a).

(* The decorators of kozlonyok_hu_downloader.py:38, pdf.py:250, magyar_kozlony.py:47, 93 and 226, act.py:44,
   52 and 58: one extractor for each class but Act.  An extractor is never given an object of another class. *)
Definition extractors (e : env) (c : cls) : option (list (obj -> gen obj)) :=
  let none := mk_gen [] None in
  match c with
  | CDownload => Some [fun o => match o with ODownload y i => all_of OFile (e_download e y i) | _ => none end]
  | CFile => Some [fun o => match o with OFile f => all_of OPages (e_lines e f) | _ => none end]
  | CPages => Some [fun o => match o with OPages p => all_of OIssue (header_extractor p) | _ => none end]
  | CIssue => Some [fun o => match o with OIssue k => all_of OSection (section_extractor k) | _ => none end]
  | CSection => Some [fun o => match o with OSection s => all_of ORaw (law_extractor s) | _ => none end]
  | CRaw => Some [fun o => match o with ORaw x => to_structure_only e x | _ => none end]
  | CStruct => Some [fun o => match o with OStruct a => enrich_with_block_amendments e a | _ => none end]
  | CBlock => Some [fun o => match o with OBlock a => enrich_with_other_semantic_data e a | _ => none end]
  | CAct => None
  end.
Definition hun_world (e : env) : world obj cls := mk_world class_of cls_eqb (extractors e).
