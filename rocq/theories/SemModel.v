(* Model of hun_law/parsers/semantic_parser.py.
   The grammatical analyser (grammatical_analyzer.py:711-729, which runs the generated parser)
   is a parameter: a function from the analysed text to what the parser reads off the result
   container, or None when analyze() raises.  It is deterministic and has no state of its own. *)
From Verif Require Import PyBase NumModel IdModel LineModel DateModel RefModel TreeModel StructModel.
From Verif Require Import FixupModel.
Local Open Scope Z_scope.

(* grammatical_analyzer.py:686-704: the properties of GrammarResultContainer that are used *)
Record analysis := mk_analysis {
  an_references : list outgoing_reference;
  an_semantic : list semantic_data;
  an_abbreviations : list act_id_abbreviation
}.
Definition analyzer := pystr -> option analysis.

(* grammatical_analyzer.py:718-729: every exception becomes a GrammaticalParsingError *)
Definition analyze (an : analyzer) (s : pystr) : res analysis :=
  match an s with Some a => Ok a | None => Err GrammaticalParsingError end.

(* semantic_parser.py:32-36; the analyzer field is the parameter *)
Record sem_state := mk_state {
  st_abbreviations : list act_id_abbreviation;
  st_changed : bool
}.
Definition START_STATE : sem_state := mk_state [] false.

(* semantic_parser.py:40 *)
Definition INTERESTING_SUBSTRINGS : list pystr :=
  [u8 ")"; u8 "§"; u8 "törvén"; u8 "hely"; u8 "hatály"; u8 "Hatály"].

(* semantic_parser.py:60-70 for an element.  What extend() appends, in order. *)
Fixpoint existing_abbreviations (e : sae) : res (list act_id_abbreviation) :=
  match e with
  | mk_sae k _ _ _ cs _ m =>
      if negb (can_be_semantic_parsed k) then Ok []
      else
        match m_abbreviations m with
        | None => Err AssertionError
        | Some own =>
            match cs with
            | None => Ok own
            | Some cs =>
                rest <- (fix go (l : list child) : res (list act_id_abbreviation) :=
                           match l with
                           | [] => Ok []
                           | ChSae c :: t => x <- existing_abbreviations c ;; y <- go t ;; Ok (x ++ y)
                           | _ :: t => go t
                           end) cs ;;
                Ok (own ++ rest)
            end
        end
  end.
(* semantic_parser.py:60-70 for an article *)
Fixpoint existing_abbreviations_list (l : list sae) : res (list act_id_abbreviation) :=
  match l with
  | [] => Ok []
  | c :: t => x <- existing_abbreviations c ;; y <- existing_abbreviations_list t ;; Ok (x ++ y)
  end.
Definition add_to_state (st : sem_state) (l : list act_id_abbreviation) : sem_state :=
  mk_state (st_abbreviations st ++ l) (st_changed st).

(* semantic_parser.py:149-153 *)
Definition JUNK : list pystr :=
  [u8 " és"; u8 " valamint"; u8 " illetve"; u8 " vagy"; u8 ";"; u8 ","].
Definition cut_junk (text : pystr) : pystr :=
  fold_left (fun t junk => if endswith junk t then firstn (List.length t - List.length junk) t else t)
    JUNK text.
(* semantic_parser.py:148-156 *)
Definition fix_list_element_end (text : pystr) (end_sentence : bool) : res pystr :=
  let text := cut_junk text in
  if end_sentence then
    c <- last_chr text ;;
    if mem_chr c (u8 ".:!?") then Ok text else Ok (text ++ u8 ".")
  else Ok text.

(* {a.abbreviation: a.act for a in l} (semantic_parser.py:176): later entries win *)
Definition abbreviations_map (l : list act_id_abbreviation) : abbrev_map :=
  fun key => match find (fun a => str_eqb (ab_abbreviation a) key) (rev l) with
             | Some a => Some (ab_act a)
             | None => None
             end.

(* the __lt__ that attrs generates for OutgoingReference (structure.py:219-224): tuples are
   compared at the first position where they differ *)
Definition outgoing_lt (a b : outgoing_reference) : res bool :=
  if negb (or_start a =? or_start b) then Ok (or_start a <? or_start b)
  else if negb (or_end a =? or_end b) then Ok (or_end a <? or_end b)
  else if ref_eqb (or_reference a) (or_reference b) then Ok false
  else ref_lt (or_reference a) (or_reference b).
(* list.sort() (semantic_parser.py:212): a stable sort that only uses <.  Which pairs Python
   compares is simplified to insertion; it only matters for whether an error of < surfaces when
   three or more references have the same start and end. *)
Fixpoint insert_outgoing (x : outgoing_reference) (l : list outgoing_reference) : res (list outgoing_reference) :=
  match l with
  | [] => Ok [x]
  | y :: t =>
      lt <- outgoing_lt y x ;;
      if (lt : bool) then r <- insert_outgoing x t ;; Ok (y :: r) else Ok (x :: l)
  end.
Fixpoint sort_outgoing (l : list outgoing_reference) : res (list outgoing_reference) :=
  match l with
  | [] => Ok []
  | x :: t => r <- sort_outgoing t ;; insert_outgoing x r
  end.

(* semantic_parser.py:187-213 *)
Definition convert_parsed_references (parsed : list outgoing_reference) (prefixlen textlen : Z)
    (m : abbrev_map) : res (list outgoing_reference) :=
  sort_outgoing
    (flat_map (fun r =>
       if (or_end r <=? prefixlen) || (textlen <? or_end r) then []
       else [mk_outgoing (Z.max (or_start r - prefixlen) 0) (or_end r - prefixlen)
                         (resolve_abbreviations (or_reference r) m)]) parsed).

Definition EMPTY_META : sae_meta := mk_meta (Some []) (Some []) (Some []).

(* semantic_parser.py:158-185; the result tuple is the filled in fields of the element *)
Definition parse_text (an : analyzer) (middle prefix postfix : pystr) (st : sem_state)
  : res (sae_meta * sem_state) :=
  middle <- fix_list_element_end middle (match postfix with [] => true | _ => false end) ;;
  let text := prefix ++ middle ++ postfix in
  if (10000 <? Z.of_nat (List.length text)) then Ok (EMPTY_META, st)
  else if negb (existsb (fun s => contains_sub s text) INTERESTING_SUBSTRINGS) then Ok (EMPTY_META, st)
  else
    a <- analyze an text ;;
    let st := match an_abbreviations a with
              | [] => st
              | l => mk_state (st_abbreviations st ++ l) true
              end in
    let m := abbreviations_map (st_abbreviations st) in
    outgoing <- convert_parsed_references (an_references a) (Z.of_nat (List.length prefix))
                  (Z.of_nat (List.length text) - Z.of_nat (List.length postfix)) m ;;
    Ok (mk_meta (Some (an_abbreviations a)) (Some outgoing)
          (Some (map (fun s => sem_resolve s m) (an_semantic a))), st).

(* semantic_parser.py:84-146 *)
Fixpoint add_semantics_to_sae (an : analyzer) (e : sae) (prefix postfix : pystr) (st : sem_state)
  : res (sae * sem_state) :=
  if negb (st_changed st) && is_semantic_parsed e then
    l <- existing_abbreviations e ;; Ok (e, add_to_state st l)
  else if negb (can_be_semantic_parsed (s_kind e)) then Ok (e, st)
  else
    match e with
    | mk_sae k i (Some text) intro cs w _ =>
        ' (m, st) <- parse_text an text prefix postfix st ;;
        e' <- new_sae k i (Some text) intro cs w m ;;
        Ok (e', st)
    | mk_sae k i None intro cs w _ =>
        ' (m, st) <- (match intro with
                      | Some intro => parse_text an intro prefix [] st
                      | None => Ok (EMPTY_META, st)
                      end) ;;
        let prefix := match intro with Some x => prefix ++ x ++ u8 " " | None => prefix end in
        let postfix := match w with Some x => u8 " " ++ x ++ postfix | None => postfix end in
        match cs with
        | None => Err AssertionError
        | Some cs =>
            ' (cs, st) <- (fix go (l : list child) (st : sem_state) : res (list child * sem_state) :=
                             match l with
                             | [] => Ok ([], st)
                             | ChSae c :: t =>
                                 ' (c, st) <- add_semantics_to_sae an c prefix postfix st ;;
                                 ' (t, st) <- go t st ;;
                                 Ok (ChSae c :: t, st)
                             | c :: t => ' (t, st) <- go t st ;; Ok (c :: t, st)
                             end) cs st ;;
            e' <- new_sae k i None intro (Some cs) w m ;;
            Ok (e', st)
        end
    end.

(* semantic_parser.py:78 *)
Fixpoint add_semantics_to_paragraphs (an : analyzer) (l : list sae) (st : sem_state)
  : res (list sae * sem_state) :=
  match l with
  | [] => Ok ([], st)
  | c :: t =>
      ' (c, st) <- add_semantics_to_sae an c [] [] st ;;
      ' (t, st) <- add_semantics_to_paragraphs an t st ;;
      Ok (c :: t, st)
  end.

(* semantic_parser.py:72-82 *)
Definition add_semantics_to_article (an : analyzer) (a : article) (st : sem_state)
  : res (article * sem_state) :=
  if negb (st_changed st) && article_is_semantic_parsed a then
    l <- existing_abbreviations_list (a_paragraphs a) ;; Ok (a, add_to_state st l)
  else
    ' (ps, st) <- add_semantics_to_paragraphs an (a_paragraphs a) st ;;
    a' <- new_article (a_identifier a) (a_title a) ps ;;
    Ok (a', st).

(* semantic_parser.py:50-54 *)
Fixpoint add_semantics_to_children (an : analyzer) (l : list act_child) (st : sem_state)
  : res (list act_child * sem_state) :=
  match l with
  | [] => Ok ([], st)
  | AArticle a :: t =>
      ' (a, st) <- add_semantics_to_article an a st ;;
      ' (t, st) <- add_semantics_to_children an t st ;;
      Ok (AArticle a :: t, st)
  | c :: t => ' (t, st) <- add_semantics_to_children an t st ;; Ok (c :: t, st)
  end.

(* attr.evolve(act, children=...); the __init__ of Act has no validators (structure.py:673-696) *)
Definition evolve_act (a : act) (children : list act_child) : act :=
  mk_act (act_identifier a) (act_publication_date a) (act_subject a) (act_preamble a) children.

(* semantic_parser.py:42-58 *)
Definition add_semantics_to_act (an : analyzer) (a : act) : res act :=
  if act_is_semantic_parsed a then Ok a
  else
    ' (children, _) <- add_semantics_to_children an (act_children a) START_STATE ;;
    Ok (evolve_act a children).

(** * Block amendments *)

(* semantic_parser.py:250, the text after the colon: an optional space, then a text in
   parentheses or in square brackets.  The result is group(2)[1:-1] (257). *)
Definition bracketed (s : pystr) : option pystr :=
  let s := match s with c :: t => if (c =? 32)%N then t else s | [] => s end in
  match s with
  | o :: t =>
      match rev t with
      | c :: m =>
          if ((o =? 40) && (c =? 41))%N || ((o =? 91) && (c =? 93))%N then Some (rev m) else None
      | [] => None
      end
  | [] => None
  end.
(* semantic_parser.py:250: the greedy first group tries the last colon first *)
Fixpoint split_intro_aux (before rest : pystr) : option (pystr * pystr) :=
  match rest with
  | [] => None
  | c :: t =>
      match split_intro_aux (before ++ [c]) t with
      | Some r => Some r
      | None =>
          if (c =? 58)%N then
            match bracketed t with Some ctx => Some (before ++ [c], ctx) | None => None end
          else None
      end
  end.
Definition split_intro (intro : pystr) : option (pystr * pystr) :=
  let s := drop_final_newline intro in
  if no_newline s then split_intro_aux [] s else None.

(* semantic_parser.py:262-268 *)
Fixpoint first_block_amendment (l : list semantic_data) : option any_reference :=
  match l with
  | [] => None
  | BlockAmendment p _ :: _ => Some p
  | _ :: t => first_block_amendment t
  end.

(* structure_parser.py:252-253, 748-749 and semantic_parser.py:278: is the exception
   a SubArticleParsingError? *)
Definition is_sub_article_parsing_error (e : exn) : bool :=
  match e with SubArticleParsingError => true | _ => false end.

(* semantic_parser.py:233-283.  children_type (structure.py:257-272) of an existing element *)
Definition block_parse_paragraph (an : analyzer) (p : sae) : res sae :=
  ct <- children_type (s_kind p) (s_children p) ;;
  match ct with
  | Some TQuoted =>
      match s_children p, s_intro p with
      | Some cs, Some intro =>
          if (10000 <? Z.of_nat (List.length intro)) then Ok p
          else
            let '(actual_intro, context_intro, context_outro) :=
              match split_intro intro with
              | None => (intro, None, None)
              | Some (a, c) =>
                  (a, Some c, match s_wrap_up p with Some w => Some (py_slice 1 (-1) w) | None => None end)
              end in
            a <- analyze an actual_intro ;;
            match first_block_amendment (an_semantic a) with
            | None => Ok p
            | Some position =>
                _ <- assert_ (Nat.eqb (List.length cs) 1) ;;
                lines <- quoted_block p 0 ;;
                match parse_block_amendment position context_intro context_outro lines with
                | Ok b =>
                    new_sae (s_kind p) (s_identifier p) (s_text p) (Some actual_intro)
                      (Some [ChSae b]) (Some []) (s_meta p)
                | Err e => if is_sub_article_parsing_error e then Ok p else Err e
                end
            end
      | _, _ => Err AssertionError
      end
  | _ => Ok p
  end.

(* semantic_parser.py:226-231 *)
Definition block_parse_article (an : analyzer) (a : article) : res article :=
  ps <- mapM (block_parse_paragraph an) (a_paragraphs a) ;;
  new_article (a_identifier a) (a_title a) ps.

(* semantic_parser.py:216-224 *)
Definition block_parse_act (an : analyzer) (a : act) : res act :=
  cs <- mapM (fun c => match c with
                       | AArticle x => y <- block_parse_article an x ;; Ok (AArticle y)
                       | AStruct e => Ok (AStruct e)
                       end) (act_children a) ;;
  Ok (evolve_act a cs).
