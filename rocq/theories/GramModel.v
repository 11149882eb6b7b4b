(* Model of hun_law/parsers/grammatical_analyzer.py: from the parse tree to references,
   abbreviations and semantic data.  The parse tree is what the generated parser (tatsu, from
   grammar/grammar.ebnf) builds; its node classes are the types below.  Fields that the grammar
   always fills in are not optional. *)
From Verif Require Import PyBase NumModel IdModel LineModel DateModel RefModel TreeModel StructModel SemModel.
Local Open Scope Z_scope.

(** * Parse trees *)

(* parseinfo.pos and parseinfo.endpos (grammatical_analyzer.py:40-41) *)
Definition span := (Z * Z)%type.

(* The class of a ReferencePart node: its name without the suffix, in lower case (171) *)
Inductive part_type :=
| PArticle | PParagraph | PAlphabeticPoint | PNumericPoint | PAlphabeticSubpoint | PNumericSubpoint.

(* grammar.ebnf:66-110: an item of singles (id.id) and an item of ranges (start.id, end.id); the
   identifiers are lists of tokens *)
Record g_single := mk_gsingle { gs_id : list pystr; gs_span : span }.
Record g_range := mk_grange { gg_start : list pystr; gg_end : list pystr; gg_span : span }.
Record g_part := mk_gpart { gp_type : part_type; gp_singles : list g_single; gp_ranges : list g_range }.
(* grammar.ebnf:44-57, 155-160, 169-173; [gr_parts] is children() *)
Record g_reference := mk_greference { gr_parts : list g_part; gr_span : span }.

(* grammar.ebnf:60-63 *)
Record g_act_ref := mk_gactref {
  ga_act_id : option (pystr * pystr * span);   (* year, number *)
  ga_abbreviation : option (pystr * span);
  ga_from_now_on : option pystr
}.

(* a quote: nested lists of tokens (grammar.ebnf:114) *)
Definition g_quote := list (nested pystr).

(* grammar.ebnf:120-140, 162-165 *)
Inductive g_structural :=
| GSubtitleTitle (raw_title : option (list pystr)) (quoted_title : option g_quote)
| GBeforeArticle (id : list pystr)
| GAfterArticle (id : list pystr)
| GSubtitleNumber (id : list pystr)
| GChapterNumber (id : list pystr)
| GTitleNumber (book_id : option pystr) (id : list pystr)
| GPartNumber (book_id : option pystr) (id : pystr).

(* grammar.ebnf:236-250, 333-335; of number_with_dot only the number *)
Record g_date := mk_gdate { gd_year : pystr; gd_month : pystr; gd_day : pystr }.
Record g_after := mk_gafter { gf_as_number : option pystr; gf_as_text : option pystr }.
Record g_day := mk_gday { gy_month : option pystr; gy_day_as_number : option pystr; gy_day_as_text : option pystr }.

(* The node classes that have a converter *)
Inductive g_node :=
| GCompoundReference (act_reference : option g_act_ref) (references : list g_reference)
| GActReference (a : g_act_ref)
| GBlockAmendment (act_reference : g_act_ref) (amended inserted : option g_reference)
| GBlockAmendmentWithSubtitle (act_reference : g_act_ref) (structural : option g_structural)
    (amended inserted : option g_reference)
| GBlockAmendmentStructural (act_reference : g_act_ref) (amended inserted : option g_structural)
| GEnforcementDate (references exception_references : list g_reference) (exact_date : option g_date)
    (after_publication : option g_after) (day_in_month : option g_day) (inline_repeal : option g_date)
| GTextAmendment (act_reference : g_act_ref) (references : list g_reference) (parts : list (g_quote * g_quote))
| GArticleTitleAmendment (act_reference : g_act_ref) (article : list pystr) (article_span : span)
    (original_text replacement_text : g_quote)
| GSimpleRepeal (act_reference : g_act_ref) (references : list g_reference) (texts : list g_quote)
| GStructuralRepeal (act_reference : g_act_ref) (structural : g_structural)
| GOther.
(* A node, or a dict or list (with GOther): what is in it, in the order of iteration (667-680) *)
Inductive g_tree := GTree (node : g_node) (children : list g_tree).

(* grammatical_analyzer.py:44-47 *)
Definition convert_quote_to_string (q : g_quote) : res pystr :=
  match q with
  | [] => Err IndexError
  | first :: _ =>
      _ <- assert_ (match first with Leaf s => str_eqb s (u8 "„") | Node _ => false end) ;;
      last <- last_chr q ;;
      _ <- assert_ (match last with Leaf s => str_eqb s (u8 "”") | Node _ => false end) ;;
      l <- flatten (py_slice 1 (-1) q) ;;
      Ok (str_strip (concat l))
  end.

(** * The reference collector *)

Definition item := (rpart * Z * Z)%type.
Definition NO_ITEM : item := (RNone, 0, 0).
(* grammatical_analyzer.py:50-55 *)
Record deferred := mk_deferred { d_type : part_type; d_data : rpart; d_start : Z; d_end : Z }.
(* grammatical_analyzer.py:67-77: the lists that are not aliases *)
Record collector := mk_collector {
  co_act : option pystr;
  co_articles : list item;
  co_paragraphs : list item;
  co_points : list item;
  co_subpoints : list item;
  co_deferred : option deferred
}.
Definition new_collector (act : option pystr) : collector :=
  mk_collector act [NO_ITEM] [NO_ITEM] [NO_ITEM] [NO_ITEM] None.

(* grammatical_analyzer.py:59-65, 99: KeyError cannot happen after the check at 95 *)
Definition part_is_next (t : part_type) : option (pystr -> pystr -> res bool) :=
  match t with
  | PArticle => Some article_is_next_identifier
  | PParagraph => Some (sae_is_next_identifier KParagraph)
  | PAlphabeticPoint => Some (sae_is_next_identifier KAlphabeticPoint)
  | PNumericPoint => Some (sae_is_next_identifier KNumericPoint)
  | PAlphabeticSubpoint => Some (sae_is_next_identifier KAlphabeticSubpoint)
  | PNumericSubpoint => None
  end.
Definition part_type_eqb (a b : part_type) : bool :=
  match a, b with
  | PArticle, PArticle | PParagraph, PParagraph | PAlphabeticPoint, PAlphabeticPoint
  | PNumericPoint, PNumericPoint | PAlphabeticSubpoint, PAlphabeticSubpoint
  | PNumericSubpoint, PNumericSubpoint => true
  | _, _ => false
  end.

(* grammatical_analyzer.py:88-99 *)
Definition mergeable_into_deferred (c : collector) (t : part_type) (data : rpart) : res bool :=
  match co_deferred c with
  | None => Ok false
  | Some d =>
      if negb (part_type_eqb (d_type d) t) then Ok false
      else if is_tuple data || is_tuple (d_data d) then Ok false
      else
        match part_is_next t with
        | None => Ok false
        | Some is_next =>
            match d_data d, data with
            | RId a, RId b => is_next a b
            | _, _ => Err AssertionError
            end
        end
  end.

(* grammatical_analyzer.py:107-120: the list is item_to_add, or grows by it *)
Definition add_to_level (l : list item) (x : item) : list item :=
  match l with
  | (RNone, _, _) :: t => x :: t
  | _ => l ++ [x]
  end.
Definition commit_deferred_item (c : collector) : collector :=
  match co_deferred c with
  | None => c
  | Some d =>
      let x := (d_data d, d_start d, d_end d) in
      match d_type d with
      | PArticle => mk_collector (co_act c) (add_to_level (co_articles c) x) (co_paragraphs c) (co_points c) (co_subpoints c) None
      | PParagraph => mk_collector (co_act c) (co_articles c) (add_to_level (co_paragraphs c) x) (co_points c) (co_subpoints c) None
      | PAlphabeticPoint | PNumericPoint =>
          mk_collector (co_act c) (co_articles c) (co_paragraphs c) (add_to_level (co_points c) x) (co_subpoints c) None
      | PAlphabeticSubpoint | PNumericSubpoint =>
          mk_collector (co_act c) (co_articles c) (co_paragraphs c) (co_points c) (add_to_level (co_subpoints c) x) None
      end
  end.
Definition defer (c : collector) (d : deferred) : collector :=
  mk_collector (co_act c) (co_articles c) (co_paragraphs c) (co_points c) (co_subpoints c) (Some d).

(* grammatical_analyzer.py:101-105 *)
Definition merge_to_deferred (c : collector) (data : rpart) (end_pos : Z) : res collector :=
  match co_deferred c with
  | None => Err AssertionError
  | Some d =>
      match d_data d, data with
      | RId a, RId b => Ok (defer c (mk_deferred (d_type d) (RRange a b) (d_start d) end_pos))
      | _, _ => Err AssertionError
      end
  end.
(* grammatical_analyzer.py:79-86 *)
Definition add_item (c : collector) (t : part_type) (data : rpart) (start_pos end_pos : Z) : res collector :=
  mergeable <- mergeable_into_deferred c t data ;;
  if (mergeable : bool) then
    c <- merge_to_deferred c data end_pos ;;
    Ok (commit_deferred_item c)
  else Ok (defer (commit_deferred_item c) (mk_deferred t data start_pos end_pos)).

(* list.sort(key=lambda x: x[1]) (grammatical_analyzer.py:131): stable *)
Definition item_start (x : item) : Z := snd (fst x).
Fixpoint insert_item (x : item) (l : list item) : list item :=
  match l with
  | [] => [x]
  | y :: t => if item_start x <=? item_start y then x :: l else y :: insert_item x t
  end.
Fixpoint sort_items (l : list item) : list item :=
  match l with [] => [] | x :: t => insert_item x (sort_items t) end.

Definition set_arg (r : reference) (level : nat) (p : rpart) : reference :=
  match level with
  | 0%nat => mk_ref (r_act r) p (r_paragraph r) (r_point r) (r_subpoint r)
  | 1%nat => mk_ref (r_act r) (r_article r) p (r_point r) (r_subpoint r)
  | 2%nat => mk_ref (r_act r) (r_article r) (r_paragraph r) p (r_subpoint r)
  | _ => mk_ref (r_act r) (r_article r) (r_paragraph r) (r_point r) p
  end.

(* grammatical_analyzer.py:132-137: all but the last item of a level *)
Fixpoint iter_level (level : nat) (l : list item) (start_override : option Z) (args : reference)
  : list outgoing_reference * option Z :=
  match l with
  | [] => ([], start_override)
  | (v, start, end_) :: t =>
      let start := match start_override with Some s => s | None => start end in
      let '(rest, o) := iter_level level t None args in
      (mk_outgoing start end_ (set_arg args level v) :: rest, o)
  end.
(* grammatical_analyzer.py:126-140 *)
Fixpoint iter_levels (level : nat) (levels : list (list item)) (start_override : option Z) (args : reference)
  : list outgoing_reference * option Z * reference :=
  match levels with
  | [] => ([], start_override, args)
  | l :: rest =>
      let l := match l with [_] => l | _ => sort_items l end in
      let '(out, o) := iter_level level (removelast l) start_override args in
      let last := last l NO_ITEM in
      let o := match o with None => Some (item_start last) | Some _ => o end in
      let '(out', o', args') := iter_levels (S level) rest o (set_arg args level (fst (fst last))) in
      (out ++ out', o', args')
  end.
(* grammatical_analyzer.py:122-142.  start_override is set after the first level: the assertion
   holds *)
Definition collector_iter (c : collector) (start_override : option Z) (end_override : Z) : list outgoing_reference :=
  let c := commit_deferred_item c in
  let '(out, o, args) :=
    iter_levels 0 [co_articles c; co_paragraphs c; co_points c; co_subpoints c] start_override
                (mk_ref (co_act c) RNone RNone RNone RNone) in
  match o with
  | Some start => out ++ [mk_outgoing start end_override args]
  | None => out
  end.

(** * References *)

Fixpoint add_singles (c : collector) (t : part_type) (l : list g_single) : res collector :=
  match l with
  | [] => Ok c
  | x :: rest => c <- add_item c t (RId (concat (gs_id x))) (fst (gs_span x)) (snd (gs_span x)) ;; add_singles c t rest
  end.
Fixpoint add_ranges (c : collector) (t : part_type) (l : list g_range) : res collector :=
  match l with
  | [] => Ok c
  | x :: rest =>
      c <- add_item c t (RRange (concat (gg_start x)) (concat (gg_end x))) (fst (gg_span x)) (snd (gg_span x)) ;;
      add_ranges c t rest
  end.
(* grammatical_analyzer.py:166-180 *)
Fixpoint fill_reference_collector (parts : list g_part) (c : collector) : res collector :=
  match parts with
  | [] => Ok c
  | p :: rest =>
      c <- add_singles c (gp_type p) (gp_singles p) ;;
      c <- add_ranges c (gp_type p) (gp_ranges p) ;;
      fill_reference_collector rest c
  end.
(* grammatical_analyzer.py:182-190 *)
Definition convert_single_in_text_reference (act_id : option pystr) (r : g_reference) : res (list outgoing_reference) :=
  c <- fill_reference_collector (gr_parts r) (new_collector act_id) ;;
  Ok (collector_iter c (Some (fst (gr_span r))) (snd (gr_span r))).

Definition evolve_reference (o : outgoing_reference) (r : reference) : outgoing_reference :=
  mk_outgoing (or_start o) (or_end o) r.
(* grammatical_analyzer.py:203-208 *)
Fixpoint relative_chain (last_reference : reference) (l : list outgoing_reference)
  : list outgoing_reference * reference :=
  match l with
  | [] => ([], last_reference)
  | o :: t =>
      let fixed := relative_to (or_reference o) last_reference in
      let '(rest, final) := relative_chain fixed t in
      (evolve_reference o fixed :: rest, final)
  end.
Fixpoint convert_multiple_loop (last_reference : reference) (refs : list g_reference) : res (list outgoing_reference) :=
  match refs with
  | [] => Ok []
  | r :: rest =>
      l <- convert_single_in_text_reference None r ;;
      let '(out, last) := relative_chain last_reference l in
      out' <- convert_multiple_loop last rest ;;
      Ok (out ++ out')
  end.
(* grammatical_analyzer.py:192-208 *)
Definition convert_multiple_in_text_references (act_id : option pystr) (refs : list g_reference) : res (list outgoing_reference) :=
  convert_multiple_loop (mk_ref act_id RNone RNone RNone RNone) refs.

(* grammatical_analyzer.py:210-222.  Nodes are true. *)
Definition convert_potential_in_text_reference (act_id : pystr) (r : option g_reference) : res (option outgoing_reference) :=
  match r with
  | None => Ok None
  | Some r =>
      l <- convert_single_in_text_reference (Some act_id) r ;;
      match l with [o] => Ok (Some o) | _ => Ok None end
  end.
(* grammatical_analyzer.py:224-229 *)
Definition convert_potential_reference (act_id : pystr) (r : option g_reference) : res (option reference) :=
  o <- convert_potential_in_text_reference act_id r ;;
  Ok (option_map or_reference o).

(* grammatical_analyzer.py:231-235 *)
Definition convert_book_id (b : option pystr) : res (option pystr) :=
  match b with None => Ok None | Some s => i <- identifier_from_string KBook s ;; Ok (Some i) end.
(* grammatical_analyzer.py:237-277 *)
Definition convert_structural_reference (act_id : pystr) (r : g_structural) : res structural_reference :=
  match r with
  | GSubtitleTitle (Some raw) _ => Ok (mk_sref (Some act_id) None None None None (Some (join_str (u8 " ") raw)) None)
  | GSubtitleTitle None (Some q) =>
      t <- convert_quote_to_string q ;; Ok (mk_sref (Some act_id) None None None None (Some t) None)
  | GSubtitleTitle None None => Err AssertionError
  | GBeforeArticle id =>
      Ok (mk_sref (Some act_id) None None None None None (Some (mk_combo BEFORE_WITHOUT_ARTICLE (concat id))))
  | GAfterArticle id => Ok (mk_sref (Some act_id) None None None None None (Some (mk_combo AFTER (concat id))))
  | GSubtitleNumber id =>
      i <- identifier_from_string KSubtitle (concat id) ;; Ok (mk_sref (Some act_id) None None None None (Some i) None)
  | GChapterNumber id =>
      i <- identifier_from_string KChapter (concat id) ;; Ok (mk_sref (Some act_id) None None None (Some i) None None)
  | GTitleNumber book id =>
      b <- convert_book_id book ;;
      i <- identifier_from_string KTitle (concat id) ;;
      Ok (mk_sref (Some act_id) b None (Some i) None None None)
  | GPartNumber book id =>
      b <- convert_book_id book ;;
      i <- identifier_from_string KPart id ;;
      Ok (mk_sref (Some act_id) b (Some i) None None None None)
  end.

(** * Converters *)

(* grammatical_analyzer.py:283-289 *)
Definition get_act_id (a : g_act_ref) : res pystr :=
  match ga_act_id a, ga_abbreviation a with
  | Some (year, number, _), _ => Ok (year ++ u8 ". évi " ++ number ++ u8 ". törvény")
  | None, Some (s, _) => Ok s
  | None, None => Err ValueError
  end.
(* grammatical_analyzer.py:291-297 *)
Definition get_act_id_pos (a : g_act_ref) : res span :=
  match ga_abbreviation a, ga_act_id a with
  | Some (_, sp), _ => Ok sp
  | None, Some (_, _, sp) => Ok sp
  | None, None => Err ValueError
  end.
Definition act_outgoing (a : g_act_ref) (act_id : pystr) : res outgoing_reference :=
  p <- get_act_id_pos a ;;
  Ok (mk_outgoing (fst p) (snd p) (mk_ref (Some act_id) RNone RNone RNone RNone)).

(* grammatical_analyzer.py:145 *)
Inductive conversion :=
| COutgoing (o : outgoing_reference)
| CAbbreviation (a : act_id_abbreviation)
| CSemantic (s : semantic_data).

Fixpoint flat_mapM {A B} (f : A -> res (list B)) (l : list A) : res (list B) :=
  match l with
  | [] => Ok []
  | x :: t => y <- f x ;; r <- flat_mapM f t ;; Ok (y ++ r)
  end.

(* grammatical_analyzer.py:300-314 *)
Definition compound_to_outgoing (a : option g_act_ref) (refs : list g_reference) : res (list outgoing_reference) :=
  match a with
  | None => flat_mapM (convert_single_in_text_reference None) refs
  | Some a =>
      act_id <- get_act_id a ;;
      o <- act_outgoing a act_id ;;
      l <- flat_mapM (convert_single_in_text_reference (Some act_id)) refs ;;
      Ok (o :: l)
  end.
(* grammatical_analyzer.py:317-330 *)
Definition act_reference_to_abbreviation (a : g_act_ref) : res (list act_id_abbreviation) :=
  match ga_from_now_on a with
  | None => Ok []
  | Some s => act_id <- get_act_id a ;; Ok [mk_abbreviation s act_id]
  end.

Definition without_act (r : reference) : reference :=
  mk_ref None (r_article r) (r_paragraph r) (r_point r) (r_subpoint r).
(* grammatical_analyzer.py:333-354 *)
Definition block_to_outgoing (a : g_act_ref) (amended inserted : option g_reference) : res (list outgoing_reference) :=
  act_id <- get_act_id a ;;
  o <- act_outgoing a act_id ;;
  am <- convert_potential_in_text_reference act_id amended ;;
  ins <- convert_potential_in_text_reference act_id inserted ;;
  let ins :=
    match am, ins with
    | Some x, Some y => Some (evolve_reference y (relative_to (without_act (or_reference y)) (or_reference x)))
    | _, _ => ins
    end in
  Ok (o :: (match am with Some x => [x] | None => [] end) ++ (match ins with Some y => [y] | None => [] end)).
(* grammatical_analyzer.py:360-374 *)
Definition convert_amendment_and_insertion (amended inserted : reference) : res semantic_data :=
  let inserted := relative_to (without_act inserted) amended in
  inside <- contains amended (first_in_range inserted) ;;
  union <- (if (inside : bool) then Ok amended
            else make_range (first_in_range amended) (last_in_range inserted)) ;;
  Ok (BlockAmendment (ARef union) false).
(* grammatical_analyzer.py:376-395 *)
Definition block_to_block (a : g_act_ref) (amended inserted : option g_reference) : res (list semantic_data) :=
  act_id <- get_act_id a ;;
  am <- convert_potential_reference act_id amended ;;
  ins <- convert_potential_reference act_id inserted ;;
  match am, ins with
  | Some x, Some y => s <- convert_amendment_and_insertion x y ;; Ok [s]
  | Some x, None => Ok [BlockAmendment (ARef x) false]
  | None, Some y => Ok [BlockAmendment (ARef y) true]
  | None, None => Ok []
  end.

(* grammatical_analyzer.py:401-418; reference is None when it was a list of references *)
Definition subtitle_block (structural : structural_reference) (r : option reference) (pure_insertion : bool) : res semantic_data :=
  match r with
  | None => Err AttributeError
  | Some r =>
      position <- (match r_article r with
                   | RNone => Ok structural
                   | RId i | RRange i _ =>
                       Ok (mk_sref (r_act r) None None None None None (Some (mk_combo BEFORE_WITH_ARTICLE i)))
                   end) ;;
      Ok (BlockAmendment (ASRef position) pure_insertion)
  end.
(* grammatical_analyzer.py:398-437 *)
Definition subtitle_to_block (a : g_act_ref) (structural : option g_structural) (amended inserted : option g_reference)
  : res (list semantic_data) :=
  act_id <- get_act_id a ;;
  sr <- (match structural with
         | Some s => convert_structural_reference act_id s
         | None => Ok (mk_sref (Some act_id) None None None None None None)
         end) ;;
  am <- convert_potential_reference act_id amended ;;
  ins <- convert_potential_reference act_id inserted ;;
  match am, ins with
  | Some _, Some _ => Err ValueError
  | Some _, None => s <- subtitle_block sr am false ;; Ok [s]
  | None, _ => s <- subtitle_block sr ins true ;; Ok [s]
  end.
(* grammatical_analyzer.py:440-463 *)
Definition structural_to_block (a : g_act_ref) (amended inserted : option g_structural) : res (list semantic_data) :=
  act_id <- get_act_id a ;;
  match amended, inserted with
  | Some _, Some _ => Err ValueError
  | Some s, None => r <- convert_structural_reference act_id s ;; Ok [BlockAmendment (ASRef r) false]
  | None, Some s => r <- convert_structural_reference act_id s ;; Ok [BlockAmendment (ASRef r) true]
  | None, None => Err AssertionError
  end.

(* grammatical_analyzer.py:469-475; strings are true unless empty *)
Definition convert_after_publication_date (f : g_after) : res enforcement_date_type :=
  match gf_as_number f with
  | Some n => i <- py_int n ;; Ok (EDaysAfterPublication i)
  | None =>
      match gf_as_text f with
      | Some (c :: t) => i <- text_to_int_hun (c :: t) ;; Ok (EDaysAfterPublication i)
      | _ => Ok (EDaysAfterPublication 1)
      end
  end.
(* grammatical_analyzer.py:477-486 *)
Definition convert_exact_date (d : g_date) : res date :=
  y <- py_int (gd_year d) ;;
  m <- text_to_month_hun (gd_month d) ;;
  dd <- py_int (gd_day d) ;;
  Date_ y m dd.
(* grammatical_analyzer.py:488-502 *)
Definition convert_day_in_month (d : g_day) : res enforcement_date_type :=
  months <- (match gy_month d with Some (c :: t) => text_to_int_hun (c :: t) | _ => Ok 1 end) ;;
  day <- (match gy_day_as_number d with
          | Some n => py_int n
          | None =>
              match gy_day_as_text d with
              | Some (c :: t) => text_to_int_hun (c :: t)
              | _ => Err ValueError
              end
          end) ;;
  Ok (EDayInMonthAfterPublication day months).
(* grammatical_analyzer.py:504-523 *)
Definition enforcement_to_enforcement (refs : list g_reference) (exact : option g_date) (after : option g_after)
    (day : option g_day) (repeal : option g_date) : res (list semantic_data) :=
  date <- (match exact, after, day with
           | Some d, _, _ => x <- convert_exact_date d ;; Ok (EDate x)
           | None, Some f, _ => convert_after_publication_date f
           | None, None, Some d => convert_day_in_month d
           | None, None, None => Err ValueError
           end) ;;
  repeal <- (match repeal with Some d => x <- convert_exact_date d ;; Ok (Some x) | None => Ok None end) ;;
  match refs with
  | [] => Ok [EnforcementDate None date repeal]
  | _ =>
      l <- convert_multiple_in_text_references None refs ;;
      Ok (map (fun o => EnforcementDate (Some (or_reference o)) date repeal) l)
  end.
(* grammatical_analyzer.py:526-534 *)
Definition enforcement_to_reference (refs exceptions : list g_reference) : res (list outgoing_reference) :=
  l <- convert_multiple_in_text_references None refs ;;
  l' <- convert_multiple_in_text_references None exceptions ;;
  Ok (l ++ l').

(* grammatical_analyzer.py:537-555 *)
Definition text_to_text (a : g_act_ref) (refs : list g_reference) (parts : list (g_quote * g_quote)) : res (list semantic_data) :=
  act_id <- get_act_id a ;;
  l <- convert_multiple_in_text_references (Some act_id) refs ;;
  flat_mapM (fun o => mapM (fun '(x, y) =>
      x <- convert_quote_to_string x ;; y <- convert_quote_to_string y ;;
      Ok (TextAmendment (or_reference o) x y)) parts) l.
(* grammatical_analyzer.py:558-568, 618-627 *)
Definition act_and_references (a : g_act_ref) (refs : list g_reference) : res (list outgoing_reference) :=
  act_id <- get_act_id a ;;
  o <- act_outgoing a act_id ;;
  l <- convert_multiple_in_text_references (Some act_id) refs ;;
  Ok (o :: l).
(* grammatical_analyzer.py:571-584 *)
Definition title_to_title (a : g_act_ref) (article : list pystr) (x y : g_quote) : res (list semantic_data) :=
  act_id <- get_act_id a ;;
  x <- convert_quote_to_string x ;;
  y <- convert_quote_to_string y ;;
  Ok [ArticleTitleAmendment (mk_ref (Some act_id) (RId (concat article)) RNone RNone RNone) x y].
(* grammatical_analyzer.py:587-599 *)
Definition title_to_reference (a : g_act_ref) (article : list pystr) (sp : span) : res (list outgoing_reference) :=
  act_id <- get_act_id a ;;
  o <- act_outgoing a act_id ;;
  Ok [o; mk_outgoing (fst sp) (snd sp) (mk_ref (Some act_id) (RId (concat article)) RNone RNone RNone)].
(* grammatical_analyzer.py:602-615 *)
Definition repeal_to_repeal (a : g_act_ref) (refs : list g_reference) (texts : list g_quote) : res (list semantic_data) :=
  act_id <- get_act_id a ;;
  l <- convert_multiple_in_text_references (Some act_id) refs ;;
  flat_mapM (fun o =>
    match texts with
    | [] => Ok [Repeal (ARef (or_reference o)) None]
    | _ => mapM (fun q => t <- convert_quote_to_string q ;; Ok (Repeal (ARef (or_reference o)) (Some t))) texts
    end) l.
(* grammatical_analyzer.py:630-639 *)
Definition structural_repeal_to_repeal (a : g_act_ref) (s : g_structural) : res (list semantic_data) :=
  act_id <- get_act_id a ;;
  r <- convert_structural_reference act_id s ;;
  Ok [Repeal (ASRef r) None].

Definition outgoings (r : res (list outgoing_reference)) : res (list conversion) := l <- r ;; Ok (map COutgoing l).
Definition semantics (r : res (list semantic_data)) : res (list conversion) := l <- r ;; Ok (map CSemantic l).
Definition both (a b : res (list conversion)) : res (list conversion) := x <- a ;; y <- b ;; Ok (x ++ y).

(* grammatical_analyzer.py:655, 660-664 and, for structural repeals, 642-650: the converters of the class, in the order of definition *)
Definition convert_single_node (n : g_node) : res (list conversion) :=
  match n with
  | GCompoundReference a refs => outgoings (compound_to_outgoing a refs)
  | GActReference a => l <- act_reference_to_abbreviation a ;; Ok (map CAbbreviation l)
  | GBlockAmendment a am ins => both (outgoings (block_to_outgoing a am ins)) (semantics (block_to_block a am ins))
  | GBlockAmendmentWithSubtitle a s am ins => semantics (subtitle_to_block a s am ins)
  | GBlockAmendmentStructural a am ins => semantics (structural_to_block a am ins)
  | GEnforcementDate refs exc ex af day rep =>
      both (semantics (enforcement_to_enforcement refs ex af day rep)) (outgoings (enforcement_to_reference refs exc))
  | GTextAmendment a refs parts => both (semantics (text_to_text a refs parts)) (outgoings (act_and_references a refs))
  | GArticleTitleAmendment a art sp x y =>
      both (semantics (title_to_title a art x y)) (outgoings (title_to_reference a art sp))
  | GSimpleRepeal a refs texts => both (semantics (repeal_to_repeal a refs texts)) (outgoings (act_and_references a refs))
  | GStructuralRepeal a s =>
      both (semantics (structural_repeal_to_repeal a s))
           (outgoings (act_id <- get_act_id a ;; o <- act_outgoing a act_id ;; Ok [o]))
  | GOther => Ok []
  end.
(* grammatical_analyzer.py:666-684 *)
Fixpoint convert_depth_first (t : g_tree) : res (list conversion) :=
  match t with
  | GTree n cs =>
      l <- (fix go (cs : list g_tree) : res (list conversion) :=
              match cs with [] => Ok [] | c :: r => x <- convert_depth_first c ;; y <- go r ;; Ok (x ++ y) end) cs ;;
      l' <- convert_single_node n ;;
      Ok (l ++ l')
  end.

(* grammatical_analyzer.py:686-688 *)
Definition all_references (l : list conversion) : list outgoing_reference :=
  flat_map (fun c => match c with COutgoing o => [o] | _ => [] end) l.
(* grammatical_analyzer.py:690-696: filter by the class of the last component *)
Fixpoint filterM {A} (f : A -> res bool) (l : list A) : res (list A) :=
  match l with
  | [] => Ok []
  | x :: t => b <- f x ;; r <- filterM f t ;; Ok (if (b : bool) then x :: r else r)
  end.
Definition is_act_reference (o : outgoing_reference) : res bool :=
  c <- last_component_with_type (or_reference o) ;;
  Ok (match c with Some (_, CAct) => true | _ => false end).
Definition act_references (l : list conversion) : res (list outgoing_reference) :=
  filterM is_act_reference (all_references l).
Definition element_references (l : list conversion) : res (list outgoing_reference) :=
  filterM (fun o => b <- is_act_reference o ;; Ok (negb b)) (all_references l).
(* grammatical_analyzer.py:698-704 *)
Definition act_id_abbreviations (l : list conversion) : list act_id_abbreviation :=
  flat_map (fun c => match c with CAbbreviation a => [a] | _ => [] end) l.
Definition semantic_data_of (l : list conversion) : list semantic_data :=
  flat_map (fun c => match c with CSemantic s => [s] | _ => [] end) l.

(* grammatical_analyzer.py:718-729: [parse] is the generated parser; whatever is raised becomes a
   GrammaticalParsingError (None here, see analyze in SemModel.v) *)
Definition analyzer_of (parse : pystr -> option g_tree) : analyzer := fun s =>
  match parse s with
  | None => None
  | Some t =>
      match convert_depth_first t with
      | Ok l => Some (mk_analysis (all_references l) (semantic_data_of l) (act_id_abbreviations l))
      | Err _ => None
      end
  end.
