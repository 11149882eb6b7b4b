(* The classes of hun_law that are converted, as a class table for D2oModel.v, and the objects of
   the other models as values. *)
From Coq Require Import Floats.SpecFloat.
From Verif Require Import PyBase NumModel IdModel LineModel DateModel RefModel TreeModel D2oModel.
Local Open Scope Z_scope.

(** * The table *)

Definition required (n : pystr) (t : ty) : field := mk_field n t NoDefault true.
Definition defaulted (n : pystr) (t : ty) (d : value) : field := mk_field n t (Default d) true.
Definition optional (t : ty) : ty := TUnion [t; TNone].
Definition opt_str (n : pystr) : field := defaulted n (optional TStr) VNone.

Definition no_check (l : list value) : res (list value) := Ok l.
Definition plain_class (n : pystr) (fs : list field) : pystr * class_info := (n, mk_class n [] (Some fs) no_check false).
Definition checked_class (n : pystr) (fs : list field) (check : list value -> res (list value)) : pystr * class_info :=
  (n, mk_class n [] (Some fs) check false).
Definition abc_class (n : pystr) (fs : list field) (check : list value -> res (list value)) : pystr * class_info :=
  (n, mk_class n [] (Some fs) check true).

(* utils.py:43-48 *)
Definition is_object_of (c : pystr) (v : value) : bool := match v with VObj d _ => str_eqb d c | _ => false end.
Definition line_check (l : list value) : res (list value) :=
  match l with
  | [VTuple parts; _] => if forallb (is_object_of (u8 "IndentedLinePart")) parts then Ok l else Err TypeError
  | _ => Err TypeError
  end.
(* utils.py:153-154 *)
Definition date_check (l : list value) : res (list value) :=
  match l with
  | [VInt y; VInt m; VInt d] => _ <- Date_ y m d ;; Ok l
  | _ => Err TypeError
  end.
(* extractors/pdf.py:145-154: converter=list *)
Definition list_check (l : list value) : res (list value) :=
  match l with
  | [VList x] | [VTuple x] => Ok [VList x]
  | _ => Err TypeError
  end.

Definition kind_name (k : sae_kind) : pystr :=
  match k with
  | KAlphabeticSubpoint => u8 "AlphabeticSubpoint" | KNumericSubpoint => u8 "NumericSubpoint"
  | KNumericPoint => u8 "NumericPoint" | KAlphabeticPoint => u8 "AlphabeticPoint"
  | KBlockAmendmentContainer => u8 "BlockAmendmentContainer" | KParagraph => u8 "Paragraph"
  end.
Definition struct_name (k : struct_kind) : pystr :=
  match k with
  | KBook => u8 "Book" | KPart => u8 "Part" | KTitle => u8 "Title" | KChapter => u8 "Chapter" | KSubtitle => u8 "Subtitle"
  end.
(* ALLOWED_CHILDREN_TYPE: structure.py:238, 419, 449, 501-502, 661-668.  None of these classes has
   subclasses: isinstance compares the class. *)
Definition allowed_children (k : sae_kind) : list pystr :=
  match k with
  | KNumericPoint => [u8 "AlphabeticSubpoint"]
  | KAlphabeticPoint => [u8 "AlphabeticSubpoint"; u8 "NumericSubpoint"]
  | KParagraph => [u8 "AlphabeticPoint"; u8 "NumericPoint"; u8 "QuotedBlock"; u8 "BlockAmendmentContainer"]
  | KBlockAmendmentContainer =>
      [u8 "Article"; u8 "Paragraph"; u8 "AlphabeticPoint"; u8 "NumericPoint"; u8 "AlphabeticSubpoint"; u8 "NumericSubpoint";
       u8 "Book"; u8 "Part"; u8 "Title"; u8 "Chapter"; u8 "Subtitle"]
  | KAlphabeticSubpoint | KNumericSubpoint => []
  end.
Definition class_name (v : value) : option pystr := match v with VObj c _ => Some c | _ => None end.
Definition is_VNone (v : value) : bool := match v with VNone => true | _ => false end.
(* structure.py:257-304: the children's types, then the validators.  What is not an object fails
   in any case. *)
Definition sae_check (k : sae_kind) (l : list value) : res (list value) :=
  match l with
  | [identifier; text; intro; children; wrap_up; a; o; s] =>
      _ <- (match children with
            | VNone => Ok tt
            | VTuple [] => Err IndexError
            | VTuple (c0 :: rest) =>
                if forallb (fun c => opt_eqb str_eqb (class_name c) (class_name c0)) rest || mixed_children_allowed k
                then Ok tt else Err TypeError
            | _ => Err TypeError
            end) ;;
      _ <- (if is_VNone text || (is_VNone intro && is_VNone wrap_up && is_VNone children) then Ok tt else Err ValueError) ;;
      _ <- (match children with
            | VTuple cs => if forallb (fun c => existsb (fun n => is_object_of n c) (allowed_children k)) cs then Ok tt else Err TypeError
            | _ => Ok tt
            end) ;;
      Ok l
  | _ => Err TypeError
  end.
(* structure.py:565-572; the identifier is the first field of a paragraph *)
Definition unnamed (v : value) : bool := match v with VObj _ (VNone :: _) => true | _ => false end.
Definition article_check (l : list value) : res (list value) :=
  match l with
  | [_; VTuple cs; _] => if existsb unnamed cs && negb (Nat.eqb (length cs) 1) then Err ValueError else Ok l
  | _ => Err TypeError
  end.

Definition Reference : ty := TClass (u8 "Reference").
Definition DateT : ty := TClass (u8 "Date").
(* structure.py:743, 746-756 *)
Definition reference_part (n : pystr) : field := defaulted n (TUnion [TNone; TStr; TTuple [TStr; TStr]]) VNone.
(* structure.py:233 *)
Definition SubArticleChildType : ty :=
  TUnion [TClass (u8 "Article"); TClass (u8 "SubArticleElement"); TClass (u8 "QuotedBlock"); TClass (u8 "StructuralElement")].
(* structure.py:242-250 *)
Definition sae_fields : list field :=
  [ opt_str (u8 "identifier"); opt_str (u8 "text"); opt_str (u8 "intro");
    defaulted (u8 "children") (optional (TVarTuple SubArticleChildType)) VNone;
    opt_str (u8 "wrap_up");
    defaulted (u8 "act_id_abbreviations") (optional (TVarTuple (TClass (u8 "ActIdAbbreviation")))) VNone;
    defaulted (u8 "outgoing_references") (optional (TVarTuple (TClass (u8 "OutgoingReference")))) VNone;
    defaulted (u8 "semantic_data") (optional (TVarTuple (TClass (u8 "SemanticData")))) VNone ].
Definition struct_fields : list field := [ required (u8 "identifier") TStr; required (u8 "title") TStr ].
Definition text_amendment_fields : list field :=
  [ required (u8 "position") Reference; required (u8 "original_text") TStr; required (u8 "replacement_text") TStr ].
Definition any_position : ty := TUnion [Reference; TClass (u8 "StructuralReference")].

(* Objects of the abstract base classes cannot be made: TypeError (structure.py:86-100, 236-330).
   c_meta: these classes derive from ABC. *)
Definition abstract (l : list value) : res (list value) := Err TypeError.
Definition hun_classes : list (pystr * class_info) :=
  [ (* utils.py:28-32, 35-38, 147-151 *)
    plain_class (u8 "IndentedLinePart") [ required (u8 "dx") TFloat; required (u8 "content") TStr; defaulted (u8 "bold") TBool (VBool false) ];
    checked_class (u8 "IndentedLine")
      [ mk_field (u8 "_parts") (TVarTuple (TClass (u8 "IndentedLinePart"))) (Factory (VTuple [])) true;
        mk_field (u8 "margin_right") TFloat (Default (VInt 0)) false ] line_check;
    checked_class (u8 "Date") [ required (u8 "year") TInt; required (u8 "month") TInt; required (u8 "day") TInt ] date_check;
    (* structure.py:86-90, 103-201 *)
    (u8 "StructuralElement", mk_class (u8 "StructuralElement") [u8 "Book"; u8 "Part"; u8 "Title"; u8 "Chapter"; u8 "Subtitle"]
                               (Some struct_fields) abstract true);
    abc_class (u8 "Book") struct_fields no_check;
    abc_class (u8 "Part") (struct_fields ++ [ defaulted (u8 "special") TBool (VBool false) ]) no_check;
    abc_class (u8 "Title") struct_fields no_check; abc_class (u8 "Chapter") struct_fields no_check; abc_class (u8 "Subtitle") struct_fields no_check;
    (* structure.py:213, 219-230 *)
    (u8 "SemanticData", mk_class (u8 "SemanticData")
       [u8 "BlockAmendment"; u8 "EnforcementDate"; u8 "TextAmendment"; u8 "ArticleTitleAmendment"; u8 "Repeal"] (Some []) no_check false);
    plain_class (u8 "OutgoingReference") [ required (u8 "start_pos") TInt; required (u8 "end_pos") TInt; required (u8 "reference") Reference ];
    plain_class (u8 "QuotedBlock") [ required (u8 "lines") (TVarTuple (TClass (u8 "IndentedLine"))) ];
    (* structure.py:236-250, 377-552 *)
    (u8 "SubArticleElement", mk_class (u8 "SubArticleElement")
       [u8 "AlphabeticSubpoint"; u8 "NumericSubpoint"; u8 "NumericPoint"; u8 "AlphabeticPoint"; u8 "BlockAmendmentContainer"; u8 "Paragraph"]
       (Some sae_fields) abstract true);
    abc_class (u8 "AlphabeticSubpoint") sae_fields (sae_check KAlphabeticSubpoint);
    abc_class (u8 "NumericSubpoint") sae_fields (sae_check KNumericSubpoint);
    abc_class (u8 "NumericPoint") sae_fields (sae_check KNumericPoint);
    abc_class (u8 "AlphabeticPoint") sae_fields (sae_check KAlphabeticPoint);
    abc_class (u8 "BlockAmendmentContainer") sae_fields (sae_check KBlockAmendmentContainer);
    abc_class (u8 "Paragraph") sae_fields (sae_check KParagraph);
    (* structure.py:555-559, 673-679 *)
    checked_class (u8 "Article")
      [ required (u8 "identifier") TStr; required (u8 "children") (TVarTuple (TClass (u8 "Paragraph"))); opt_str (u8 "title") ] article_check;
    plain_class (u8 "Act")
      [ required (u8 "identifier") TStr; required (u8 "publication_date") DateT; required (u8 "subject") TStr;
        required (u8 "preamble") TStr;
        required (u8 "children") (TVarTuple (TUnion [TClass (u8 "StructuralElement"); TClass (u8 "Article")])) ];
    (* structure.py:746-756, 963-977, 1008-1079 *)
    plain_class (u8 "Reference")
      [ opt_str (u8 "act"); reference_part (u8 "article"); reference_part (u8 "paragraph"); reference_part (u8 "point");
        reference_part (u8 "subpoint") ];
    plain_class (u8 "SubtitleArticleCombo") [ required (u8 "position") (TEnum (u8 "SubtitleArticleComboType")); required (u8 "article_id") TStr ];
    plain_class (u8 "StructuralReference")
      [ opt_str (u8 "act"); opt_str (u8 "book"); opt_str (u8 "part"); opt_str (u8 "title"); opt_str (u8 "chapter");
        opt_str (u8 "subtitle"); defaulted (u8 "special") (TUnion [TClass (u8 "SubtitleArticleCombo"); TNone]) VNone ];
    plain_class (u8 "ActIdAbbreviation") [ required (u8 "abbreviation") TStr; required (u8 "act") TStr ];
    plain_class (u8 "BlockAmendment") [ required (u8 "position") any_position; defaulted (u8 "pure_insertion") TBool (VBool false) ];
    plain_class (u8 "DayInMonthAfterPublication") [ required (u8 "day") TInt; defaulted (u8 "months") TInt (VInt 1) ];
    plain_class (u8 "DaysAfterPublication") [ defaulted (u8 "days") TInt (VInt 1) ];
    plain_class (u8 "SpecialEnforcementDate") [ required (u8 "description") TStr ];
    plain_class (u8 "EnforcementDate")
      [ required (u8 "position") (optional Reference);
        required (u8 "date") (TUnion [DateT; TClass (u8 "DaysAfterPublication"); TClass (u8 "DayInMonthAfterPublication");
                                      TClass (u8 "SpecialEnforcementDate")]);
        defaulted (u8 "repeal_date") (optional DateT) VNone ];
    plain_class (u8 "TextAmendment") text_amendment_fields;
    plain_class (u8 "ArticleTitleAmendment") text_amendment_fields;
    plain_class (u8 "Repeal") [ required (u8 "position") any_position; opt_str (u8 "text") ];
    (* extractors/magyar_kozlony.py:129-134, extractors/pdf.py:144-154 *)
    plain_class (u8 "MagyarKozlonyLawRawText")
      [ required (u8 "identifier") TStr; required (u8 "publication_date") DateT; required (u8 "subject") TStr;
        required (u8 "body") (TVarTuple (TClass (u8 "IndentedLine"))) ];
    checked_class (u8 "PageOfLines") [ mk_field (u8 "lines") (TList (TClass (u8 "IndentedLine"))) (Factory (VList [])) true ] list_check;
    checked_class (u8 "PdfOfLines") [ mk_field (u8 "pages") (TList (TClass (u8 "PageOfLines"))) (Factory (VList [])) true ] list_check
  ].
(* structure.py:957-960 *)
Definition hun_table : table :=
  mk_table hun_classes
    [ (u8 "SubtitleArticleComboType", [u8 "BEFORE_WITH_ARTICLE"; u8 "BEFORE_WITHOUT_ARTICLE"; u8 "AFTER"]) ].

(** * Objects as values *)

Definition str_value (s : pystr) : value := VStr s.
Definition opt_value {A} (f : A -> value) (o : option A) : value := match o with None => VNone | Some x => f x end.
Definition tuple_value {A} (f : A -> value) (l : list A) : value := VTuple (map f l).

Definition part_value (p : part) : value := VObj (u8 "IndentedLinePart") [VFloat (p_dx p); VStr (p_content p); VBool (p_bold p)].
Definition line_value (l : line) : value := VObj (u8 "IndentedLine") [tuple_value part_value (l_parts l); VFloat (l_margin_right l)].
Definition date_value (d : date) : value := VObj (u8 "Date") [VInt (d_year d); VInt (d_month d); VInt (d_day d)].
Definition rpart_value (p : rpart) : value :=
  match p with RNone => VNone | RId s => VStr s | RRange a b => VTuple [VStr a; VStr b] end.
Definition reference_value (r : reference) : value :=
  VObj (u8 "Reference")
    [opt_value str_value (r_act r); rpart_value (r_article r); rpart_value (r_paragraph r); rpart_value (r_point r); rpart_value (r_subpoint r)].
Definition combo_name (p : combo_position) : pystr :=
  match p with
  | BEFORE_WITH_ARTICLE => u8 "BEFORE_WITH_ARTICLE" | BEFORE_WITHOUT_ARTICLE => u8 "BEFORE_WITHOUT_ARTICLE" | AFTER => u8 "AFTER"
  end.
Definition combo_value (c : subtitle_article_combo) : value :=
  VObj (u8 "SubtitleArticleCombo") [VEnum (u8 "SubtitleArticleComboType") (combo_name (combo_pos c)); VStr (combo_article c)].
Definition sref_value (r : structural_reference) : value :=
  VObj (u8 "StructuralReference")
    [opt_value str_value (sr_act r); opt_value str_value (sr_book r); opt_value str_value (sr_part r); opt_value str_value (sr_title r);
     opt_value str_value (sr_chapter r); opt_value str_value (sr_subtitle r); opt_value combo_value (sr_special r)].
Definition any_value (r : any_reference) : value := match r with ARef r => reference_value r | ASRef r => sref_value r end.
Definition enforcement_value (e : enforcement_date_type) : value :=
  match e with
  | EDate d => date_value d
  | EDaysAfterPublication n => VObj (u8 "DaysAfterPublication") [VInt n]
  | EDayInMonthAfterPublication d m => VObj (u8 "DayInMonthAfterPublication") [VInt d; VInt m]
  | ESpecial s => VObj (u8 "SpecialEnforcementDate") [VStr s]
  end.
Definition semantic_value (s : semantic_data) : value :=
  match s with
  | BlockAmendment p i => VObj (u8 "BlockAmendment") [any_value p; VBool i]
  | EnforcementDate p d r => VObj (u8 "EnforcementDate") [opt_value reference_value p; enforcement_value d; opt_value date_value r]
  | TextAmendment p o r => VObj (u8 "TextAmendment") [reference_value p; VStr o; VStr r]
  | ArticleTitleAmendment p o r => VObj (u8 "ArticleTitleAmendment") [reference_value p; VStr o; VStr r]
  | Repeal p t => VObj (u8 "Repeal") [any_value p; opt_value str_value t]
  end.
Definition outgoing_value (o : outgoing_reference) : value :=
  VObj (u8 "OutgoingReference") [VInt (or_start o); VInt (or_end o); reference_value (or_reference o)].
Definition abbreviation_value (a : act_id_abbreviation) : value :=
  VObj (u8 "ActIdAbbreviation") [VStr (ab_abbreviation a); VStr (ab_act a)].
Definition struct_value (e : structural_element) : value :=
  VObj (struct_name (se_kind e))
    (VStr (se_identifier e) :: VStr (se_title e) :: match se_kind e with KPart => [VBool (se_special e)] | _ => [] end).

Fixpoint sae_value (s : sae) : value :=
  match s with
  | mk_sae k i t n cs w m =>
      VObj (kind_name k)
        [ opt_value str_value i; opt_value str_value t; opt_value str_value n;
          match cs with None => VNone | Some l => VTuple (map child_value l) end;
          opt_value str_value w;
          opt_value (tuple_value abbreviation_value) (m_abbreviations m);
          opt_value (tuple_value outgoing_value) (m_outgoing m);
          opt_value (tuple_value semantic_value) (m_semantic m) ]
  end
with child_value (c : child) : value :=
  match c with
  | ChSae s => sae_value s
  | ChArticle a => article_value a
  | ChQuoted l => VObj (u8 "QuotedBlock") [tuple_value line_value l]
  | ChStruct e => struct_value e
  end
with article_value (a : article) : value :=
  match a with
  | mk_article i t ps => VObj (u8 "Article") [VStr i; VTuple (map sae_value ps); opt_value str_value t]
  end.
Definition act_child_value (c : act_child) : value :=
  match c with AStruct e => struct_value e | AArticle a => article_value a end.
Definition act_value (a : act) : value :=
  VObj (u8 "Act")
    [VStr (act_identifier a); date_value (act_publication_date a); VStr (act_subject a); VStr (act_preamble a);
     tuple_value act_child_value (act_children a)].
(* the text of a law in the gazette, and the pages of a PDF file *)
Definition raw_value (identifier : pystr) (publication_date : date) (subject : pystr) (body : list line) : value :=
  VObj (u8 "MagyarKozlonyLawRawText")
    [VStr identifier; date_value publication_date; VStr subject; tuple_value line_value body].
Definition pdf_value (pages : list (list line)) : value :=
  VObj (u8 "PdfOfLines") [VList (map (fun l => VObj (u8 "PageOfLines") [VList (map line_value l)]) pages)].
