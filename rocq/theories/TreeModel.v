(* Model of the act tree of hun_law/structure.py: elements, construction, lookup and mapping. *)
From Verif Require Import PyBase NumModel IdModel LineModel DateModel RefModel.
Local Open Scope Z_scope.

(** * Semantic data *)

(* structure.py:1024-1040 *)
Inductive enforcement_date_type :=
| EDate (d : date)
| EDaysAfterPublication (days : Z)
| EDayInMonthAfterPublication (day months : Z)
| ESpecial (description : pystr).

(* structure.py:1014-1079: the subclasses of SemanticData *)
Inductive semantic_data :=
| BlockAmendment (position : any_reference) (pure_insertion : bool)
| EnforcementDate (position : option reference) (date_ : enforcement_date_type) (repeal_date : option date)
| TextAmendment (position : reference) (original_text replacement_text : pystr)
| ArticleTitleAmendment (position : reference) (original_text replacement_text : pystr)
| Repeal (position : any_reference) (text : option pystr).

(* structure.py:215-216 (the default: unchanged), 1019-1021, 1056-1058, 1067-1069, 1077-1079 *)
Definition sem_resolve (s : semantic_data) (m : abbrev_map) : semantic_data :=
  match s with
  | BlockAmendment p i => BlockAmendment (any_resolve p m) i
  | EnforcementDate _ _ _ => s
  | TextAmendment p o r => TextAmendment (resolve_abbreviations p m) o r
  | ArticleTitleAmendment p o r => ArticleTitleAmendment (resolve_abbreviations p m) o r
  | Repeal p t => Repeal (any_resolve p m) t
  end.

(* structure.py:219-224 *)
Record outgoing_reference := mk_outgoing { or_start : Z; or_end : Z; or_reference : reference }.

(* structure.py:1008-1011 *)
Record act_id_abbreviation := mk_abbreviation { ab_abbreviation : pystr; ab_act : pystr }.

(** * Elements *)

(* structure.py:204-210 *)
Inductive struct_kind := KBook | KPart | KTitle | KChapter | KSubtitle.
(* structure.py:86-201; [se_special] is only used by Part (structure.py:130) *)
Record structural_element := mk_struct {
  se_kind : struct_kind;
  se_identifier : pystr;
  se_title : pystr;
  se_special : bool
}.

(* the subclasses of SubArticleElement, structure.py:378-552 *)
Inductive sae_kind :=
| KAlphabeticSubpoint | KNumericSubpoint | KNumericPoint | KAlphabeticPoint
| KBlockAmendmentContainer | KParagraph.

(* structure.py:248-250: the fields the semantic parser fills in *)
Record sae_meta := mk_meta {
  m_abbreviations : option (list act_id_abbreviation);
  m_outgoing : option (list outgoing_reference);
  m_semantic : option (list semantic_data)
}.
Definition NO_META : sae_meta := mk_meta None None None.

(* structure.py:236-255 (sae; the init=False fields are functions below), 227-230 (QuotedBlock),
   555-563 (Article).  A child of an element is any of the classes of SubArticleChildType. *)
Inductive sae :=
| mk_sae (kind : sae_kind) (identifier text intro : option pystr) (children : option (list child))
         (wrap_up : option pystr) (meta : sae_meta)
with child :=
| ChSae (s : sae)
| ChArticle (a : article)
| ChQuoted (lines : list line)
| ChStruct (e : structural_element)
with article :=
| mk_article (identifier : pystr) (title : option pystr) (paragraphs : list sae).

Definition s_kind (s : sae) := let 'mk_sae k _ _ _ _ _ _ := s in k.
Definition s_identifier (s : sae) := let 'mk_sae _ i _ _ _ _ _ := s in i.
Definition s_text (s : sae) := let 'mk_sae _ _ t _ _ _ _ := s in t.
Definition s_intro (s : sae) := let 'mk_sae _ _ _ i _ _ _ := s in i.
Definition s_children (s : sae) := let 'mk_sae _ _ _ _ c _ _ := s in c.
Definition s_wrap_up (s : sae) := let 'mk_sae _ _ _ _ _ w _ := s in w.
Definition s_meta (s : sae) := let 'mk_sae _ _ _ _ _ _ m := s in m.
Definition a_identifier (a : article) := let 'mk_article i _ _ := a in i.
Definition a_title (a : article) := let 'mk_article _ t _ := a in t.
Definition a_paragraphs (a : article) := let 'mk_article _ _ p := a in p.

(* structure.py:673-684 *)
Inductive act_child :=
| AStruct (e : structural_element)
| AArticle (a : article).
Record act := mk_act {
  act_identifier : pystr;
  act_publication_date : date;
  act_subject : pystr;
  act_preamble : pystr;
  act_children : list act_child
}.

(** * Construction *)

Definition sae_kind_eqb (a b : sae_kind) : bool :=
  match a, b with
  | KAlphabeticSubpoint, KAlphabeticSubpoint | KNumericSubpoint, KNumericSubpoint
  | KNumericPoint, KNumericPoint | KAlphabeticPoint, KAlphabeticPoint
  | KBlockAmendmentContainer, KBlockAmendmentContainer | KParagraph, KParagraph => true
  | _, _ => false
  end.
Definition struct_kind_eqb (a b : struct_kind) : bool :=
  match a, b with
  | KBook, KBook | KPart, KPart | KTitle, KTitle | KChapter, KChapter | KSubtitle, KSubtitle => true
  | _, _ => false
  end.

(* type(c) *)
Inductive child_class := TSae (k : sae_kind) | TArticle | TQuoted | TStruct (k : struct_kind).
Definition class_of (c : child) : child_class :=
  match c with
  | ChSae s => TSae (s_kind s)
  | ChArticle _ => TArticle
  | ChQuoted _ => TQuoted
  | ChStruct e => TStruct (se_kind e)
  end.
Definition class_eqb (a b : child_class) : bool :=
  match a, b with
  | TSae x, TSae y => sae_kind_eqb x y
  | TArticle, TArticle | TQuoted, TQuoted => true
  | TStruct x, TStruct y => struct_kind_eqb x y
  | _, _ => false
  end.

(* c.identifier; QuotedBlock.identifier is None (structure.py:230) *)
Definition child_identifier (c : child) : option pystr :=
  match c with
  | ChSae s => s_identifier s
  | ChArticle a => Some (a_identifier a)
  | ChQuoted _ => None
  | ChStruct e => Some (se_identifier e)
  end.

(* ALLOW_DIFFERENTLY_TYPED_CHILDREN: structure.py:239, 480 *)
Definition mixed_children_allowed (k : sae_kind) : bool :=
  match k with KBlockAmendmentContainer => true | _ => false end.
(* CAN_BE_SEMANTIC_PARSED: structure.py:240, 481 *)
Definition can_be_semantic_parsed (k : sae_kind) : bool :=
  match k with KBlockAmendmentContainer => false | _ => true end.
(* isinstance(c, ALLOWED_CHILDREN_TYPE): structure.py:238, 419, 449, 501-502, 661-668 *)
Definition child_allowed (k : sae_kind) (c : child_class) : bool :=
  match k, c with
  | KNumericPoint, TSae KAlphabeticSubpoint => true
  | KAlphabeticPoint, TSae (KAlphabeticSubpoint | KNumericSubpoint) => true
  | KParagraph, TSae (KAlphabeticPoint | KNumericPoint | KBlockAmendmentContainer) => true
  | KParagraph, TQuoted => true
  | KBlockAmendmentContainer, TSae KBlockAmendmentContainer => false
  | KBlockAmendmentContainer, (TSae _ | TArticle | TStruct _) => true
  | _, _ => false
  end.

(* structure.py:257-272: the type of the children; None without children or if they differ and
   may *)
Definition children_type (k : sae_kind) (children : option (list child)) : res (option child_class) :=
  match children with
  | None => Ok None
  | Some [] => Err IndexError
  | Some (c0 :: rest) =>
      if forallb (fun c => class_eqb (class_of c) (class_of c0)) rest then Ok (Some (class_of c0))
      else if mixed_children_allowed k then Ok None
      else Err TypeError
  end.

(* The generated __init__ of a subclass of SubArticleElement: the init=False fields first
   (structure.py:252-272; children_map and is_semantic_parsed cannot fail), then the validators
   (292-304). *)
Definition new_sae (kind : sae_kind) (identifier text intro : option pystr)
    (children : option (list child)) (wrap_up : option pystr) (meta : sae_meta) : res sae :=
  _ <- children_type kind children ;;
  _ <- (match text with
        | None => Ok tt
        | Some _ =>
            match intro, wrap_up, children with
            | None, None, None => Ok tt
            | _, _, _ => Err ValueError
            end
        end) ;;
  _ <- (match children with
        | None => Ok tt
        | Some cs => if forallb (fun c => child_allowed kind (class_of c)) cs then Ok tt else Err TypeError
        end) ;;
  Ok (mk_sae kind identifier text intro children wrap_up meta).

(* attr.evolve(self, children=...): builds a new object through __init__ *)
Definition evolve_children (s : sae) (children : option (list child)) : res sae :=
  new_sae (s_kind s) (s_identifier s) (s_text s) (s_intro s) children (s_wrap_up s) (s_meta s).
Definition evolve_meta (s : sae) (children : option (list child)) (m : sae_meta) : res sae :=
  new_sae (s_kind s) (s_identifier s) (s_text s) (s_intro s) children (s_wrap_up s) m.

(* structure.py:280-290 *)
Fixpoint is_semantic_parsed (s : sae) : bool :=
  match m_semantic (s_meta s) with
  | None => false
  | Some _ =>
      match s with
      | mk_sae _ _ _ _ (Some cs) _ _ =>
          (fix all (l : list child) : bool :=
             match l with
             | ChSae c :: t =>
                 if can_be_semantic_parsed (s_kind c) && negb (is_semantic_parsed c) then false else all t
             | _ :: _ => true
             | [] => true
             end) cs
      | _ => true
      end
  end.

(* structure.py:555-580, the __init__ of Article.  The children's types are not checked. *)
Definition new_article (identifier : pystr) (title : option pystr) (children : list sae) : res article :=
  if existsb (fun c => match s_identifier c with None => true | Some _ => false end) children
     && negb (Nat.eqb (List.length children) 1)
  then Err ValueError
  else Ok (mk_article identifier title children).
(* structure.py:578-580 *)
Definition article_is_semantic_parsed (a : article) : bool := forallb is_semantic_parsed (a_paragraphs a).

(* structure.py:686-688 *)
Definition act_articles (a : act) : list article :=
  flat_map (fun c => match c with AArticle x => [x] | AStruct _ => [] end) (act_children a).
(* structure.py:694-696 *)
Definition act_is_semantic_parsed (a : act) : bool := forallb article_is_semantic_parsed (act_articles a).

(** * Headers and numbering *)

(* structure.py:379-381, 401-403, 421-423, 451-453, 483-485, 504-510 *)
Definition opt_format (i : option pystr) : pystr := match i with None => u8 "None" | Some s => s end.
Definition header_prefix (k : sae_kind) (i : option pystr) : res pystr :=
  match k with
  | KAlphabeticSubpoint | KAlphabeticPoint => Ok (opt_format i ++ u8 ") ")
  | KNumericSubpoint | KNumericPoint => Ok (opt_format i ++ u8 ". ")
  | KBlockAmendmentContainer => Err TypeError
  | KParagraph => Ok (match i with None => [] | Some s => u8 "(" ++ s ++ u8 ") " end)
  end.

(* identifier[i] of a string *)
Definition chr_at (s : pystr) (i : nat) : res pystr :=
  match nth_error s i with Some c => Ok [c] | None => Err IndexError end.

(* structure.py:383-389, 405-407, 430-432, 460-462, 487-489, 535-537 *)
Definition sae_is_next_identifier (k : sae_kind) (identifier next_identifier : pystr) : res bool :=
  match k with
  | KAlphabeticSubpoint =>
      match identifier with
      | [_] => Ok (is_next_letter_hun identifier next_identifier)
      | [c0; c1] =>
          n0 <- chr_at next_identifier 0 ;;
          if str_eqb [c0] n0 then
            n1 <- chr_at next_identifier 1 ;;
            Ok (is_next_letter_hun [c1] n1)
          else Ok false
      | _ => Err ValueError
      end
  | KNumericSubpoint | KNumericPoint | KParagraph => is_next_numeric_identifier identifier next_identifier
  | KAlphabeticPoint => Ok (is_next_letter_hun identifier next_identifier)
  | KBlockAmendmentContainer => Err TypeError
  end.

(** * Lookup *)

(* d[key] of a dict {c.identifier: c for c in l}: a later entry replaces an earlier one *)
Definition dict_lookup {A} (ident : A -> option pystr) (l : list A) (key : option pystr) : res A :=
  match find (fun c => opt_eqb str_eqb (ident c) key) (rev l) with
  | Some c => Ok c
  | None => Err KeyError
  end.

(* structure.py:306-309 *)
Definition sae_child (s : sae) (child_id : pystr) : res child :=
  match s_children s with
  | None => Err KeyError
  | Some cs => dict_lookup child_identifier cs (Some child_id)
  end.

(* structure.py:425-428, 455-458: subpoint(), with the asserted type *)
Definition point_subpoint (s : sae) (sp_id : pystr) : res child :=
  c <- sae_child s sp_id ;;
  match s_kind s, class_of c with
  | KNumericPoint, TSae KAlphabeticSubpoint => Ok c
  | KAlphabeticPoint, TSae (KAlphabeticSubpoint | KNumericSubpoint) => Ok c
  | _, _ => Err AssertionError
  end.

(* structure.py:438-444, 468-474 *)
Definition point_at_reference (s : sae) (r : reference) : res (list child) :=
  match r_subpoint r with
  | RNone => Err AssertionError
  | RRange a b =>
      match s_children s with
      | None | Some [] => Err KeyError
      | Some cs => cut_by_identifier child_identifier cs a b
      end
  | RId i => c <- point_subpoint s i ;; Ok [c]
  end.

(* structure.py:512-516: point() *)
Definition paragraph_point (s : sae) (point_id : pystr) : res sae :=
  c <- sae_child s point_id ;;
  match c with
  | ChSae p => match s_kind p with KAlphabeticPoint | KNumericPoint => Ok p | _ => Err KeyError end
  | _ => Err KeyError
  end.

(* structure.py:543-552 *)
Definition paragraph_at_reference (s : sae) (r : reference) : res (list child) :=
  match r_point r with
  | RNone => Err AssertionError
  | RRange a b =>
      match s_children s with
      | None | Some [] => Err KeyError
      | Some cs => cut_by_identifier child_identifier cs a b
      end
  | RId i =>
      p <- paragraph_point s i ;;
      match r_subpoint r with
      | RNone => Ok [ChSae p]
      | _ => point_at_reference p r
      end
  end.

(* structure.py:518-524; tuple indexing accepts negative numbers *)
Definition quoted_block (s : sae) (block_num : Z) : res (list line) :=
  match s_children s with
  | None => Err KeyError
  | Some cs =>
      let n := Z.of_nat (List.length cs) in
      let i := if block_num <? 0 then block_num + n else block_num in
      if (i <? 0) || (n <=? i) then Err IndexError
      else match nth_error cs (Z.to_nat i) with
           | Some (ChQuoted l) => Ok l
           | _ => Err KeyError
           end
  end.

(* structure.py:526-533 *)
Definition block_amendment (s : sae) : res sae :=
  match s_children s with
  | None | Some [] => Err KeyError
  | Some (ChSae c :: rest) =>
      match s_kind c with
      | KBlockAmendmentContainer => match rest with [] => Ok c | _ => Err AssertionError end
      | _ => Err KeyError
      end
  | Some _ => Err KeyError
  end.

(* structure.py:395-396, 413-414, 495-496 for the classes without addressable children *)
Definition sae_at_reference (s : sae) (r : reference) : res (list child) :=
  match s_kind s with
  | KAlphabeticSubpoint | KNumericSubpoint | KBlockAmendmentContainer => Err ValueError
  | KNumericPoint | KAlphabeticPoint => point_at_reference s r
  | KParagraph => paragraph_at_reference s r
  end.

(* structure.py:574-576: the key of the paragraph map for a single reference part *)
Definition part_key (p : rpart) : option pystr := match p with RId s => Some s | _ => None end.

(* structure.py:625-631 *)
Definition article_at_reference (a : article) (r : reference) : res (list child) :=
  match r_paragraph r with
  | RRange x y =>
      l <- cut_by_identifier s_identifier (a_paragraphs a) x y ;; Ok (map ChSae l)
  | p =>
      par <- dict_lookup s_identifier (a_paragraphs a) (part_key p) ;;
      match r_point r with
      | RNone => Ok [ChSae par]
      | _ => sae_at_reference par r
      end
  end.

(* structure.py:690-692, 698-700 *)
Definition act_article (a : act) (article_id : pystr) : res article :=
  dict_lookup (fun x => Some (a_identifier x)) (act_articles a) (Some article_id).

(* structure.py:702-710 *)
Definition act_at_reference (a : act) (r : reference) : res (list child) :=
  _ <- assert_ (match r_act r with None => true | Some x => str_eqb x (act_identifier a) end) ;;
  match r_article r with
  | RNone => Err AssertionError
  | RId i =>
      art <- act_article a i ;;
      if is_none (r_paragraph r) && is_none (r_point r) && is_none (r_subpoint r)
      then Ok [ChArticle art]
      else article_at_reference art r
  | RRange x y =>
      if is_none (r_paragraph r) && is_none (r_point r) && is_none (r_subpoint r)
      then l <- cut_by_identifier (fun x => Some (a_identifier x)) (act_articles a) x y ;;
           Ok (map ChArticle l)
      else Err AssertionError
  end.

(** * Mapping *)

Definition opt_part (i : option pystr) : rpart := match i with None => RNone | Some s => RId s end.

(* structure.py:391-393, 409-411, 434-436, 464-466, 491-493, 539-541 *)
Definition relative_reference (s : sae) : res reference :=
  match s_kind s with
  | KAlphabeticSubpoint | KNumericSubpoint => Ok (mk_ref None RNone RNone RNone (opt_part (s_identifier s)))
  | KNumericPoint | KAlphabeticPoint => Ok (mk_ref None RNone RNone (opt_part (s_identifier s)) RNone)
  | KBlockAmendmentContainer => Err TypeError
  | KParagraph => Ok (mk_ref None RNone (opt_part (s_identifier s)) RNone RNone)
  end.
(* structure.py:621-623 *)
Definition article_reference (a : article) : reference :=
  mk_ref None (RId (a_identifier a)) RNone RNone RNone.

(* structure.py:343-347 and 642-646: is the walk to stop here? *)
Definition disjoint_from_filter (r : reference) (filter : option reference) : res bool :=
  match filter with
  | None => Ok false
  | Some f =>
      c1 <- contains r f ;;
      if (c1 : bool) then Ok false
      else c2 <- contains f r ;; Ok (negb c2)
  end.
(* structure.py:351, 370: is the modifier to be called here? *)
Definition in_filter (r : reference) (filter : option reference) : res bool :=
  match filter with None => Ok true | Some f => contains f r end.

(* A modifier may raise and may have side effects on a state S. *)
Definition modifier (S : Type) := reference -> sae -> S -> res (sae * S).

Fixpoint mapM_st {A B S} (f : A -> S -> res (B * S)) (l : list A) (st : S) : res (list B * S) :=
  match l with
  | [] => Ok ([], st)
  | x :: t =>
      ' (y, st) <- f x st ;;
      ' (ys, st) <- mapM_st f t st ;;
      Ok (y :: ys, st)
  end.

(* structure.py:330-374.  The children the loop runs over are those of the modified element, so
   the recursion is bounded by fuel.  Python rebuilds the element only if some child is a new
   object; the model always does, which gives an equal element, because an element that exists
   has passed the constructor (Constructed in TreeSpec.v). *)
Fixpoint sae_map {S} (fuel : nat) (m : modifier S) (filter : option reference) (children_first : bool)
    (parent : reference) (self : sae) (st : S) : res (sae * S) :=
  match fuel with
  | O => Err OutOfFuel
  | Datatypes.S fuel' =>
      match relative_reference self with
      | Err TypeError => Ok (self, st)
      | Err e => Err e
      | Ok rel =>
          let reference := relative_to rel parent in
          stop <- disjoint_from_filter reference filter ;;
          if (stop : bool) then Ok (self, st) else
          ' (result, st) <-
            (if children_first then Ok (self, st)
             else sel <- in_filter reference filter ;;
                  if (sel : bool) then m reference self st else Ok (self, st)) ;;
          ' (result, st) <-
            (match s_children result with
             | None | Some [] => Ok (result, st)
             | Some cs =>
                 ' (new_children, st) <-
                   mapM_st (fun c st =>
                     match c with
                     | ChSae x =>
                         ' (y, st) <- sae_map fuel' m filter children_first reference x st ;;
                         Ok (ChSae y, st)
                     | _ => Ok (c, st)
                     end) cs st ;;
                 result <- evolve_children result (Some new_children) ;;
                 Ok (result, st)
             end) ;;
          if children_first then
            sel <- in_filter reference filter ;;
            if (sel : bool) then m reference result st else Ok (result, st)
          else Ok (result, st)
      end
  end.

(* structure.py:633-658 *)
Definition article_map {S} (fuel : nat) (m : modifier S) (filter : option reference) (children_first : bool)
    (parent : reference) (self : article) (st : S) : res (article * S) :=
  let reference := relative_to (article_reference self) parent in
  stop <- disjoint_from_filter reference filter ;;
  if (stop : bool) then Ok (self, st) else
  ' (new_children, st) <-
    mapM_st (fun c st =>
      ' (y, st) <- sae_map fuel m filter children_first reference c st ;;
      _ <- assert_ (sae_kind_eqb (s_kind y) KParagraph) ;;
      Ok (y, st)) (a_paragraphs self) st ;;
  a <- new_article (a_identifier self) (a_title self) new_children ;;
  Ok (a, st).

(* structure.py:712-730 *)
Definition map_articles {S} (a : act) (m : reference -> article -> S -> res (article * S))
    (filter : option reference) (st : S) : res (act * S) :=
  ' (new_children, st) <-
    mapM_st (fun c st =>
      match c with
      | AStruct _ => Ok (c, st)
      | AArticle x =>
          let r := mk_ref (Some (act_identifier a)) (RId (a_identifier x)) RNone RNone RNone in
          sel <- in_filter r filter ;;
          if (sel : bool) then ' (y, st) <- m r x st ;; Ok (AArticle y, st) else Ok (c, st)
      end) (act_children a) st ;;
  Ok (mk_act (act_identifier a) (act_publication_date a) (act_subject a) (act_preamble a) new_children, st).

(* structure.py:732-740 *)
Definition map_saes {S} (fuel : nat) (a : act) (m : modifier S) (filter : option reference)
    (children_first : bool) (st : S) : res (act * S) :=
  map_articles a (fun _ x st =>
    article_map fuel m filter children_first (mk_ref (Some (act_identifier a)) RNone RNone RNone RNone) x st)
    None st.
