(* What the JSON files of acts look like: which keys there are, in which order, and what is left out. *)
From Coq Require Import Floats.SpecFloat.
From Verif Require Import PyBase LineModel DateModel RefModel TreeModel D2oModel.
Local Open Scope Z_scope.

Definition keys := list (pystr * value).
(* left out if there is none *)
Definition opt_key {A} (k : pystr) (f : A -> value) (o : option A) : keys :=
  match o with None => [] | Some x => [(k, f x)] end.
(* left out unless true *)
Definition flag_key (k : pystr) (b : bool) : keys := if b then [(k, VBool true)] else [].
Definition list_json {A} (f : A -> value) (l : list A) : value := VList (map f l).
(* where several classes are possible, the name of the class comes last *)
Definition named (n : pystr) (k : keys) : value := VDict (k ++ [(u8 "__type__", VStr n)]).

Definition date_json (d : date) : keys :=
  [(u8 "year", VInt (d_year d)); (u8 "month", VInt (d_month d)); (u8 "day", VInt (d_day d))].
(* a line: its parts, and the right margin unless it is zero *)
Definition part_json (p : part) : value :=
  VDict ([(u8 "dx", VFloat (p_dx p)); (u8 "content", VStr (p_content p))] ++ flag_key (u8 "bold") (p_bold p)).
Definition is_zero (f : pyfloat) : bool := match f with S754_zero _ => true | _ => false end.
Definition line_json (l : line) : value :=
  VDict ((u8 "_parts", list_json part_json (l_parts l)) ::
         if is_zero (l_margin_right l) then [] else [(u8 "margin_right", VFloat (l_margin_right l))]).

(* a part of a reference: nothing, an identifier, or the two ends of a range *)
Definition place_key (k : pystr) (p : rpart) : keys :=
  match p with
  | RNone => []
  | RId i => [(k, VStr i)]
  | RRange a b => [(k, VList [VStr a; VStr b])]
  end.
Definition reference_json (r : reference) : keys :=
  opt_key (u8 "act") VStr (r_act r) ++ place_key (u8 "article") (r_article r) ++ place_key (u8 "paragraph") (r_paragraph r) ++
  place_key (u8 "point") (r_point r) ++ place_key (u8 "subpoint") (r_subpoint r).
Definition position_name (p : combo_position) : pystr :=
  match p with
  | BEFORE_WITH_ARTICLE => u8 "BEFORE_WITH_ARTICLE"
  | BEFORE_WITHOUT_ARTICLE => u8 "BEFORE_WITHOUT_ARTICLE"
  | AFTER => u8 "AFTER"
  end.
Definition combo_json (c : subtitle_article_combo) : value :=
  VDict [(u8 "position", VStr (position_name (combo_pos c))); (u8 "article_id", VStr (combo_article c))].
Definition structural_reference_json (r : structural_reference) : keys :=
  opt_key (u8 "act") VStr (sr_act r) ++ opt_key (u8 "book") VStr (sr_book r) ++ opt_key (u8 "part") VStr (sr_part r) ++
  opt_key (u8 "title") VStr (sr_title r) ++ opt_key (u8 "chapter") VStr (sr_chapter r) ++
  opt_key (u8 "subtitle") VStr (sr_subtitle r) ++ opt_key (u8 "special") combo_json (sr_special r).
Definition any_reference_json (r : any_reference) : value :=
  match r with
  | ARef r => named (u8 "Reference") (reference_json r)
  | ASRef r => named (u8 "StructuralReference") (structural_reference_json r)
  end.

(* one day and one month are not written *)
Definition count_key (k : pystr) (n : Z) : keys := if n =? 1 then [] else [(k, VInt n)].
Definition enforcement_json (e : enforcement_date_type) : value :=
  match e with
  | EDate d => named (u8 "Date") (date_json d)
  | EDaysAfterPublication n => named (u8 "DaysAfterPublication") (count_key (u8 "days") n)
  | EDayInMonthAfterPublication d m => named (u8 "DayInMonthAfterPublication") ((u8 "day", VInt d) :: count_key (u8 "months") m)
  | ESpecial s => named (u8 "SpecialEnforcementDate") [(u8 "description", VStr s)]
  end.
Definition or_null {A} (f : A -> value) (o : option A) : value := match o with None => VNone | Some x => f x end.
Definition text_change_json (n : pystr) (p : reference) (original replacement : pystr) : value :=
  named n [(u8 "position", VDict (reference_json p)); (u8 "original_text", VStr original); (u8 "replacement_text", VStr replacement)].
Definition semantic_json (s : semantic_data) : value :=
  match s with
  | BlockAmendment p pure => named (u8 "BlockAmendment") ((u8 "position", any_reference_json p) :: flag_key (u8 "pure_insertion") pure)
  | EnforcementDate p d repeal => named (u8 "EnforcementDate")
      ([(u8 "position", or_null (fun r => VDict (reference_json r)) p); (u8 "date", enforcement_json d)] ++
       opt_key (u8 "repeal_date") (fun d => VDict (date_json d)) repeal)
  | TextAmendment p o r => text_change_json (u8 "TextAmendment") p o r
  | ArticleTitleAmendment p o r => text_change_json (u8 "ArticleTitleAmendment") p o r
  | Repeal p t => named (u8 "Repeal") ((u8 "position", any_reference_json p) :: opt_key (u8 "text") VStr t)
  end.
Definition outgoing_json (o : outgoing_reference) : value :=
  VDict [(u8 "start_pos", VInt (or_start o)); (u8 "end_pos", VInt (or_end o)); (u8 "reference", VDict (reference_json (or_reference o)))].
Definition abbreviation_json (a : act_id_abbreviation) : value :=
  VDict [(u8 "abbreviation", VStr (ab_abbreviation a)); (u8 "act", VStr (ab_act a))].

Definition unit_name (k : struct_kind) : pystr :=
  match k with
  | KBook => u8 "Book" | KPart => u8 "Part" | KTitle => u8 "Title" | KChapter => u8 "Chapter" | KSubtitle => u8 "Subtitle"
  end.
Definition is_part (k : struct_kind) : bool := match k with KPart => true | _ => false end.
Definition unit_json (e : structural_element) : value :=
  named (unit_name (se_kind e))
    ([(u8 "identifier", VStr (se_identifier e)); (u8 "title", VStr (se_title e))] ++
     flag_key (u8 "special") (is_part (se_kind e) && se_special e)).
Definition element_name (k : sae_kind) : pystr :=
  match k with
  | KAlphabeticSubpoint => u8 "AlphabeticSubpoint" | KNumericSubpoint => u8 "NumericSubpoint"
  | KNumericPoint => u8 "NumericPoint" | KAlphabeticPoint => u8 "AlphabeticPoint"
  | KBlockAmendmentContainer => u8 "BlockAmendmentContainer" | KParagraph => u8 "Paragraph"
  end.

(* the class of a paragraph in an article is not written *)
Fixpoint element_json (s : sae) : keys :=
  match s with
  | mk_sae _ identifier text intro children wrap_up m =>
      opt_key (u8 "identifier") VStr identifier ++ opt_key (u8 "text") VStr text ++ opt_key (u8 "intro") VStr intro ++
      match children with None => [] | Some l => [(u8 "children", VList (map child_json l))] end ++
      opt_key (u8 "wrap_up") VStr wrap_up ++
      opt_key (u8 "act_id_abbreviations") (list_json abbreviation_json) (m_abbreviations m) ++
      opt_key (u8 "outgoing_references") (list_json outgoing_json) (m_outgoing m) ++
      opt_key (u8 "semantic_data") (list_json semantic_json) (m_semantic m)
  end
with child_json (c : child) : value :=
  match c with
  | ChSae s => match s with mk_sae k _ _ _ _ _ _ => named (element_name k) (element_json s) end
  | ChArticle a => named (u8 "Article") (article_json a)
  | ChQuoted l => named (u8 "QuotedBlock") [(u8 "lines", list_json line_json l)]
  | ChStruct e => unit_json e
  end
with article_json (a : article) : keys :=
  match a with
  | mk_article identifier title paragraphs =>
      [(u8 "identifier", VStr identifier); (u8 "children", VList (map (fun p => VDict (element_json p)) paragraphs))] ++
      opt_key (u8 "title") VStr title
  end.
Definition act_child_json (c : act_child) : value :=
  match c with AStruct e => unit_json e | AArticle a => named (u8 "Article") (article_json a) end.
Definition act_json (a : act) : value :=
  VDict [(u8 "identifier", VStr (act_identifier a)); (u8 "publication_date", VDict (date_json (act_publication_date a)));
         (u8 "subject", VStr (act_subject a)); (u8 "preamble", VStr (act_preamble a));
         (u8 "children", list_json act_child_json (act_children a))].

(* laws before parsing, and cached pages *)
Definition law_json (identifier : pystr) (publication_date : date) (subject : pystr) (body : list line) : value :=
  VDict [(u8 "identifier", VStr identifier); (u8 "publication_date", VDict (date_json publication_date)); (u8 "subject", VStr subject);
         (u8 "body", list_json line_json body)].
Definition pages_json (pages : list (list line)) : value :=
  VDict [(u8 "pages", list_json (fun l => VDict [(u8 "lines", list_json line_json l)]) pages)].
