(* Model of hun_law/parsers/structure_parser.py and of the headings of hun_law/structure.py. *)
From Verif Require Import PyBase NumModel IdModel LineModel DateModel RefModel TreeModel FixupModel.
Local Open Scope Z_scope.

(** * Regular expressions

    Each pattern is written as the function that gives its group 1.  None of them can match in two
    ways: what follows a repeated class is never in the class. *)

Definition is_lower_az (c : N) : bool := ((97 <=? c) && (c <=? 122))%N.
Definition is_upper_az (c : N) : bool := ((65 <=? c) && (c <=? 90))%N.

(* any text without a newline (group 1), then the suffix, at the end of the string: the patterns of
   structure_parser.py:135, 145, 169 *)
Definition match_suffix (suffix s : pystr) : option pystr :=
  let s := drop_final_newline s in
  if endswith suffix s then
    let g := firstn (List.length s - List.length suffix) s in
    if no_newline g then Some g else None
  else None.
(* the same with re.IGNORECASE, structure_parser.py:179; the suffix has only the ASCII letters e, f, j, t, z,
   which no other character folds to *)
Definition ascii_lower (c : N) : N := if is_upper_az c then (c + 32)%N else c.
Definition match_suffix_nocase (suffix s : pystr) : option pystr :=
  let s := drop_final_newline s in
  if endswith suffix (map ascii_lower s) then
    let g := firstn (List.length s - List.length suffix) s in
    if no_newline g then Some g else None
  else None.

(* one character that satisfies [f], then the given text: the character *)
Definition chr_then (f : N -> bool) (after s : pystr) : option N :=
  match s with
  | c :: t => if f c && startswith after t then Some c else None
  | [] => None
  end.
(* a slash first *)
Definition slash_chr_then (f : N -> bool) (after s : pystr) : option N :=
  match s with
  | c :: t => if (c =? 47)%N then chr_then f after t else None
  | [] => None
  end.
(* a number of at least one digit and the rest *)
Definition leading_number (s : pystr) : option (pystr * pystr) :=
  match take_while is_ascii_digit s with
  | [] => None
  | d => Some (d, skipn (List.length d) s)
  end.

(* structure_parser.py:190: digits, perhaps a slash and a capital, a dot and a space *)
Definition match_subtitle (s : pystr) : option pystr :=
  match leading_number s with
  | None => None
  | Some (d, rest) =>
      if startswith (u8 ". ") rest then Some d
      else match slash_chr_then is_upper_az (u8 ". ") rest with
           | Some c => Some (d ++ [47%N; c])
           | None => None
           end
  end.

(* structure_parser.py:420, 437, 491: the prefix and a small letter, or ny, or sz, then a closing
   parenthesis and a space.  The prefix is read literally; it has no special characters in the pattern
   as long as it is made of letters, which the identifiers of points are. *)
Definition match_alphabetic (prefix s : pystr) : option pystr :=
  let other :=
    if startswith (u8 "ny) ") s then Some (u8 "ny")
    else if startswith (u8 "sz) ") s then Some (u8 "sz") else None in
  if startswith prefix s then
    match chr_then is_lower_az (u8 ") ") (skipn (List.length prefix) s) with
    | Some c => Some (prefix ++ [c])
    | None => other
    end
  else other.

(* structure_parser.py:450, 473: digits, perhaps a small letter or a slash and a small letter, a dot and a
   space *)
Definition match_numeric (s : pystr) : option pystr :=
  match leading_number s with
  | None => None
  | Some (d, rest) =>
      if startswith (u8 ". ") rest then Some d
      else match chr_then is_lower_az (u8 ". ") rest with
           | Some c => Some (d ++ [c])
           | None =>
               match slash_chr_then is_lower_az (u8 ". ") rest with
               | Some c => Some (d ++ [47%N; c])
               | None => None
               end
           end
  end.

(* structure_parser.py:509: an opening parenthesis, digits, perhaps a small letter (group 1), a closing
   parenthesis and a space *)
Definition match_paragraph (s : pystr) : option pystr :=
  if startswith (u8 "(") s then
    match leading_number (skipn 1 s) with
    | None => None
    | Some (d, rest) =>
        if startswith (u8 ") ") rest then Some d
        else match chr_then is_lower_az (u8 ") ") rest with
             | Some c => Some (d ++ [c])
             | None => None
             end
    end
  else None.

(* structure_parser.py:599, after group 1: a dot, perhaps a space, a section sign, spaces, any text to the end *)
Definition article_tail (s : pystr) : bool :=
  (startswith (u8 ". § ") s && no_newline (drop_final_newline (skipn 4 s)))
  || (startswith (u8 ".§ ") s && no_newline (drop_final_newline (skipn 3 s))).
(* digits, perhaps a slash and a capital, then the tail *)
Definition match_article_number (s : pystr) : option pystr :=
  match leading_number s with
  | None => None
  | Some (d, rest) =>
      if article_tail rest then Some d
      else match rest with
           | x :: c :: t =>
               if (x =? 47)%N && is_upper_az c && article_tail t then Some (d ++ [47%N; c]) else None
           | _ => None
           end
  end.
(* structure_parser.py:599: perhaps a book number and a colon first; group 1 includes it *)
Definition match_article (s : pystr) : option pystr :=
  match leading_number s with
  | None => None
  | Some (d, rest) =>
      if startswith (u8 ":") rest then
        match match_article_number (skipn 1 rest) with
        | Some i => Some (d ++ 58%N :: i)
        | None => None
        end
      else match_article_number s
  end.

(** * Indents *)

Definition f_abs (x : pyfloat) : pyfloat := SpecFloat.SFabs x.
(* structure_parser.py:257, 828-830 *)
Definition similar_indent (a b : pyfloat) : bool := f_ltb (f_abs (f_sub a b)) (f_of_Z 1).

Definition not_empty_line (l : line) : bool := negb (is_empty_line l).
(* join_line_strs(l.content for l in lines if l != EMPTY_LINE) *)
Definition joined_lines (ls : list line) : pystr := join_line_strs (map l_content (List.filter not_empty_line ls)).

(** * Structural elements *)

(* structure.py:128 / structure_parser.py:148 *)
Definition special_parts : list pystr := [u8 "ÁLTALÁNOS RÉSZ"; u8 "KÜLÖNÖS RÉSZ"; u8 "ZÁRÓ RÉSZ"].

(* structure.py:92-95, 110-112, 132-138, 153-156, 172-175, 192-197 *)
Definition formatted_identifier (e : structural_element) : res pystr :=
  match se_kind e with
  | KBook => n <- py_int (se_identifier e) ;; t <- int_to_text_hun n ;; Ok (str_upper t ++ u8 " KÖNYV")
  | KPart =>
      n <- py_int (se_identifier e) ;;
      if se_special e then
        (* SPECIAL_PARTS[n - 1], where the last entry is None; negative indices count from the end *)
        match (if n - 1 <? 0 then n + 3 else n - 1) with
        | 0 => Ok (u8 "ÁLTALÁNOS RÉSZ")
        | 1 => Ok (u8 "KÜLÖNÖS RÉSZ")
        | 2 => Ok (u8 "ZÁRÓ RÉSZ")
        | 3 => Err AssertionError
        | _ => Err IndexError
        end
      else t <- int_to_text_hun n ;; Ok (str_upper t ++ u8 " RÉSZ")
  | KTitle => r <- arabic_to_roman_with_postfix (se_identifier e) ;; Ok (str_upper r ++ u8 ". CÍM")
  | KChapter => r <- arabic_to_roman_with_postfix (se_identifier e) ;; Ok (str_upper r ++ u8 ". FEJEZET")
  | KSubtitle => match se_identifier e with [] => Ok [] | i => Ok (i ++ u8 ".") end
  end.

(* structure.py:114-116, 140-142, 158-160, 177-179, 199-201 *)
Definition identifier_from_string (k : struct_kind) (s : pystr) : res pystr :=
  match k with
  | KBook | KPart => n <- text_to_int_hun s ;; Ok (str_of_int n)
  | KTitle | KChapter => roman_to_arabic_with_postfix s
  | KSubtitle => Ok s
  end.

Definition struct_regex (k : struct_kind) : pystr -> option pystr :=
  match k with
  | KBook => match_suffix (u8 " KÖNYV")
  | KPart => match_suffix (u8 " RÉSZ")
  | KTitle => match_suffix (u8 ". CÍM")
  | KChapter => match_suffix_nocase (u8 ". fejezet")
  | KSubtitle => match_subtitle
  end.

(* structure_parser.py:119-126, 156-160: only ValueErrors are caught, but the calls raise nothing else
   (extract_total in StructProofs3.v) *)
Definition struct_extract (k : struct_kind) (l : line) : res (option pystr) :=
  let by_regex :=
    match struct_regex k (l_content l) with
    | None => Ok None
    | Some g =>
        match identifier_from_string k g with
        | Ok i => Ok (Some i)
        | Err e => if is_value_error e then Ok None else Err e
        end
    end in
  match k with
  | KPart =>
      match index_str (l_content l) special_parts with
      | Some n => Ok (Some (str_of_int (Z.of_nat n + 1)))
      | None => by_regex
      end
  | _ => by_regex
  end.

(* structure_parser.py:103-109 *)
Definition numbered_header (k : struct_kind) (strict : bool) (last_identifier : pystr) (l : line) : res bool :=
  extracted <- struct_extract k l ;;
  match extracted with
  | None => Ok false
  | Some i =>
      if negb strict then Ok true
      else if str_eqb i (u8 "1") then Ok true
      else is_next_numeric_identifier last_identifier i
  end.

(* structure_parser.py:103-109, 192-200.  A bold line is not empty, so it has a first character. *)
Definition struct_is_header (k : struct_kind) (strict : bool) (last_identifier : pystr) (l previous : line) : res bool :=
  match k with
  | KSubtitle =>
      if negb (l_bold l) then Ok false
      else
        c <- (match l_content l with c :: _ => Ok c | [] => Err IndexError end) ;;
        if negb strict then
          if is_uppercase_hun [c] then Ok true
          else extracted <- struct_extract KSubtitle l ;;
               Ok (match extracted with None => false | Some _ => true end)
        else if is_empty_line previous && is_uppercase_hun [c] then Ok true
        else numbered_header k strict last_identifier l
  | _ => numbered_header k strict last_identifier l
  end.

(* s.split('. ', 1)[1] *)
Definition after_dot_space (s : pystr) : res pystr :=
  match find_sub (u8 ". ") s with
  | Some n => Ok (skipn (n + 2) s)
  | None => Err IndexError
  end.

(* structure_parser.py:111-117, 150-154, 202-209 *)
Definition struct_parse (k : struct_kind) (lines : list line) : res structural_element :=
  match lines with
  | [] => Err IndexError
  | l0 :: rest =>
      let plain :=
        i <- struct_extract k l0 ;;
        match i with
        | None => Err AssertionError
        | Some i => Ok (mk_struct k i (joined_lines rest) false)
        end in
      match k with
      | KPart =>
          match index_str (l_content l0) special_parts with
          | Some n => Ok (mk_struct KPart (str_of_int (Z.of_nat n + 1)) [] true)
          | None => plain
          end
      | KSubtitle =>
          let title := joined_lines lines in
          i <- struct_extract k l0 ;;
          match i with
          | None => Ok (mk_struct KSubtitle [] title false)
          | Some i => title <- after_dot_space title ;; Ok (mk_struct KSubtitle i title false)
          end
      | _ => plain
      end
  end.

(** * Sub-article elements *)

(* a parser class with its class attributes *)
Record pconf := mk_pconf {
  pc_kind : sae_kind;                       (* PARSED_TYPE *)
  pc_regex : pystr -> option pystr;         (* HEADER_REGEX, group 1 *)
  pc_first : pystr;                         (* first_identifier() *)
  pc_must_have_intro : bool;                (* PARENT_MUST_HAVE_INTRO *)
  pc_must_have_multiple : bool;             (* PARENT_MUST_HAVE_MULTIPLE_OF_THIS *)
  pc_can_have_wrapup : bool                 (* PARENT_CAN_HAVE_WRAPUP *)
}.

(* structure_parser.py:412-424, 431-438 *)
Definition alphabetic_subpoint_conf (prefix : pystr) : pconf :=
  mk_pconf KAlphabeticSubpoint (match_alphabetic prefix) (prefix ++ u8 "a") true true true.
(* structure_parser.py:441-454 *)
Definition numeric_point_conf : pconf := mk_pconf KNumericPoint match_numeric (u8 "1") true true true.
(* structure_parser.py:461-477 *)
Definition numeric_subpoint_conf : pconf := mk_pconf KNumericSubpoint match_numeric (u8 "1") true true false.
(* structure_parser.py:484-495 *)
Definition alphabetic_point_conf : pconf := mk_pconf KAlphabeticPoint (match_alphabetic []) (u8 "a") true true true.
(* structure_parser.py:506-513 *)
Definition paragraph_conf : pconf := mk_pconf KParagraph match_paragraph (u8 "1") false false false.

(* structure_parser.py:329-332 *)
Definition extract_identifier (p : pconf) (l : line) : option pystr := pc_regex p (l_content l).

(* structure_parser.py:339-367, the loop over the numbered lines; [last] is last_identifier with
   header_indentation, both None at first *)
Fixpoint find_header_loop (p : pconf) (expected : pystr) (lineno : nat) (lines : list (Z * line))
    (last : option (pystr * pyfloat)) (end_ : option exn) : gen nat :=
  match lines with
  | [] => mk_gen [] end_
  | (quote_level, l) :: t =>
      let next := find_header_loop p expected (S lineno) t in
      if negb (quote_level =? 0) then next last end_
      else if match last with
              | Some (_, indent) => negb (similar_indent indent (l_indent l)) && f_ltb indent (l_indent l)
              | None => false
              end then next last end_
      else match extract_identifier p l with
           | None => next last end_
           | Some i =>
               let found :=
                 match last with
                 | None => Ok (str_eqb i expected)
                 | Some (last_i, _) => sae_is_next_identifier (pc_kind p) last_i i
                 end in
               match found with
               | Err e => mk_gen [] (Some e)
               | Ok false => next last end_
               | Ok true =>
                   let g := next (Some (i, l_indent l)) end_ in
                   mk_gen (lineno :: g_items g) (g_end g)
               end
           end
  end.
Definition find_header_lines (p : pconf) (lines : list line) : gen nat :=
  let g := iterate_with_quote_level true lines in
  find_header_loop p (pc_first p) O (g_items g) None (g_end g).

(* next(gen, None) *)
Definition gen_first {A} (g : gen A) : res (option A) :=
  match g_items g, g_end g with
  | x :: _, _ => Ok (Some x)
  | [], Some e => Err e
  | [], None => Ok None
  end.
(* tuple(gen) *)
Definition gen_all {A} (g : gen A) : res (list A) :=
  match g_end g with Some e => Err e | None => Ok (g_items g) end.

(* structure_parser.py:334-336 *)
Definition find_first_header (p : pconf) (lines : list line) : res (option nat) :=
  gen_first (find_header_lines p lines).

(* structure_parser.py:379-382: the first line after the header line that stands as far left as it *)
Fixpoint wrapup_by_indent (limit : pyfloat) (before lines : list line) : option (list line * list line) :=
  match lines with
  | [] => None
  | l :: t =>
      if f_ltb (l_indent l) limit then Some (before, l :: t)
      else wrapup_by_indent limit (before ++ [l]) t
  end.
(* structure_parser.py:385-387: the last line, the first excepted, that follows a short line *)
Fixpoint wrapup_by_margin (before after : list line) : option (list line * list line) :=
  (* [before] is reversed *)
  match before with
  | [] => None
  | l :: t =>
      if f_ltb (f_of_Z 20) (l_margin_right l) then Some (rev before, after)
      else wrapup_by_margin t (l :: after)
  end.
(* structure_parser.py:370-388 *)
Definition split_last_item_and_wrapup (p : pconf) (lines : list line) (properly_indented : bool)
  : res (list line * option pystr) :=
  if negb (pc_can_have_wrapup p) then Ok (lines, None)
  else
    let lines := List.filter not_empty_line lines in
    let answer r := Ok (match r with
                        | Some (a, b) => (a, Some (join_line_strs (map l_content b)))
                        | None => (lines, None)
                        end) in
    if properly_indented then
      match lines with
      | [] => Err IndexError
      | l0 :: t => answer (wrapup_by_indent (f_add (l_indent l0) (f_of_Z 1)) [l0] t)
      end
    else
      match rev lines with
      | [] => answer None
      | l :: t => answer (wrapup_by_margin t [l])
      end.

(* what an entry of get_subelement_parsers() is used for *)
Record sub_parser := mk_sub {
  sp_first_header : list line -> res (option nat);
  sp_must_have_intro : bool;
  sp_extract : list line -> bool -> res (list child * option pystr)
}.

(* structure_parser.py:296-303 *)
Fixpoint first_headers (subs : list sub_parser) (lines : list line) : res (list (nat * sub_parser)) :=
  match subs with
  | [] => Ok []
  | s :: t =>
      h <- sp_first_header s lines ;;
      r <- first_headers t lines ;;
      Ok (match h with
          | None => r
          | Some n => if Nat.eqb n 0 && sp_must_have_intro s then r else (n, s) :: r
          end)
  end.
(* structure_parser.py:305: sorting by the line number; equal line numbers make Python compare classes,
   which is a TypeError *)
Fixpoint insert_header (x : nat * sub_parser) (l : list (nat * sub_parser)) : res (list (nat * sub_parser)) :=
  match l with
  | [] => Ok [x]
  | y :: t =>
      if Nat.eqb (fst x) (fst y) then Err TypeError
      else if Nat.ltb (fst x) (fst y) then Ok (x :: l)
      else r <- insert_header x t ;; Ok (y :: r)
  end.
Fixpoint sort_headers (l : list (nat * sub_parser)) : res (list (nat * sub_parser)) :=
  match l with
  | [] => Ok []
  | x :: t => r <- sort_headers t ;; insert_header x r
  end.
(* structure_parser.py:306-316 *)
Fixpoint try_headers (hs : list (nat * sub_parser)) (lines : list line) (properly_indented : bool)
  : res (option pystr * list child * option pystr) :=
  match hs with
  | [] => Err NoSubelementsError
  | (n, s) :: t =>
      let intro := match n with O => None | _ => Some (joined_lines (firstn n lines)) end in
      match sp_extract s (skipn n lines) properly_indented with
      | Ok (children, wrap_up) => Ok (intro, children, wrap_up)
      | Err SubArticleElementNotFoundError => try_headers t lines properly_indented
      | Err e => Err e
      end
  end.
(* structure_parser.py:290-316 *)
Definition parse_children_and_wrapup (subs : list sub_parser) (lines : list line) (properly_indented : bool)
  : res (option pystr * list child * option pystr) :=
  hs <- first_headers subs lines ;;
  hs <- sort_headers hs ;;
  try_headers hs lines properly_indented.

(* structure_parser.py:269-287 *)
Definition sae_parse (p : pconf) (subs_of : option pystr -> res (list sub_parser))
    (lines : list line) (properly_indented : bool) : res sae :=
  match lines with
  | [] => Err IndexError
  | l0 :: rest =>
      let identifier := extract_identifier p l0 in
      prefix <- header_prefix (pc_kind p) identifier ;;
      _ <- assert_ (startswith prefix (l_content l0)) ;;
      first_line <- l_slice l0 (Z.of_nat (List.length prefix)) None ;;
      let lines := first_line :: rest in
      match (subs <- subs_of identifier ;; parse_children_and_wrapup subs lines properly_indented) with
      | Ok (intro, children, wrap_up) =>
          new_sae (pc_kind p) identifier None intro (Some children) wrap_up NO_META
      | Err NoSubelementsError =>
          new_sae (pc_kind p) identifier (Some (joined_lines lines)) None None None NO_META
      | Err _ => Err SubArticleParsingError
      end
  end.

(* lines[start:stop] for consecutive header lines, structure_parser.py:402-404 *)
Fixpoint parse_items (parse : list line -> res sae) (lines : list line) (headers : list nat) : res (list sae) :=
  match headers with
  | a :: ((b :: _) as t) =>
      e <- parse (slice_nat a b lines) ;;
      es <- parse_items parse lines t ;;
      Ok (e :: es)
  | _ => Ok []
  end.
(* structure_parser.py:391-409 *)
Definition extract_multiple (p : pconf) (subs_of : option pystr -> res (list sub_parser))
    (lines : list line) (properly_indented : bool) : res (list sae * option pystr) :=
  headers <- gen_all (find_header_lines p lines) ;;
  match headers with
  | [] => Err IndexError
  | h0 :: _ =>
      _ <- assert_ (Nat.eqb h0 0) ;;
      match lines with
      | [] => Err IndexError
      | l0 :: _ =>
          _ <- assert_ (opt_eqb str_eqb (extract_identifier p l0) (Some (pc_first p))) ;;
          if Nat.ltb (List.length headers) 2 && pc_must_have_multiple p then Err SubArticleElementNotFoundError
          else
            elements <- parse_items (fun ls => sae_parse p subs_of ls properly_indented) lines headers ;;
            ' (remaining, wrap_up) <-
              split_last_item_and_wrapup p (skipn (last headers O) lines) properly_indented ;;
            e <- sae_parse p subs_of remaining properly_indented ;;
            Ok (elements ++ [e], wrap_up)
      end
  end.

Definition as_sub (p : pconf) (subs_of : option pystr -> res (list sub_parser)) : sub_parser :=
  mk_sub (find_first_header p) (pc_must_have_intro p)
         (fun lines pi => ' (es, w) <- extract_multiple p subs_of lines pi ;; Ok (map ChSae es, w)).

(** * Quoted blocks *)

Definition is_open_quote (c : N) : bool := (c =? 8222)%N || (c =? 8220)%N.
(* content[0] and content[-1] *)
Definition first_chr (s : pystr) : res N := match s with c :: _ => Ok c | [] => Err IndexError end.

(* structure_parser.py:525-529 *)
Fixpoint quoted_header_loop (lineno : nat) (lines : list (Z * line)) (end_ : option exn) : res (option nat) :=
  match lines with
  | [] => match end_ with Some e => Err e | None => Ok None end
  | (quote_level, l) :: t =>
      if (quote_level =? 0) && not_empty_line l then
        c <- first_chr (l_content l) ;;
        if is_open_quote c then Ok (Some lineno) else quoted_header_loop (S lineno) t end_
      else quoted_header_loop (S lineno) t end_
  end.
Definition quoted_first_header (lines : list line) : res (option nat) :=
  let g := iterate_with_quote_level true lines in quoted_header_loop O (g_items g) (g_end g).

(* structure_parser.py:521; the quoted lines so far are in the state, the wrap-up too *)
Inductive quote_state :=
| QStart
| QBlock (quoted_lines : list line)
| QWrapUpMaybe
| QWrapUp (wrap_up : pystr).

(* structure_parser.py:545-551 and 566-571: a line that opens a block *)
Definition open_block (l : line) (blocks : list (list line)) : res (quote_state * list (list line)) :=
  c <- last_chr (l_content l) ;;
  if (c =? 8221)%N then
    q <- l_slice l 1 (Some (-1)) ;; Ok (QWrapUpMaybe, blocks ++ [[q]])
  else
    q <- l_slice l 1 None ;; Ok (QBlock [q], blocks).

(* structure_parser.py:538-581, one line *)
Definition quoted_step (state : quote_state) (blocks : list (list line)) (quote_level : Z) (l : line)
  : res (quote_state * list (list line)) :=
  match state with
  | QStart =>
      if is_empty_line l then Ok (QStart, blocks)
      else
        c <- first_chr (l_content l) ;;
        _ <- assert_ (is_open_quote c && (quote_level =? 0)) ;;
        open_block l blocks
  | QBlock quoted_lines =>
      let at_end := quote_level + quote_level_diff (l_content l) in
      if is_empty_line l then Ok (QBlock (quoted_lines ++ [l]), blocks)
      else
        c <- last_chr (l_content l) ;;
        if (c =? 8221)%N && (at_end =? 0) then
          q <- l_slice l 0 (Some (-1)) ;; Ok (QWrapUpMaybe, blocks ++ [quoted_lines ++ [q]])
        else Ok (QBlock (quoted_lines ++ [l]), blocks)
  | QWrapUpMaybe =>
      if is_empty_line l then Ok (state, blocks)
      else
        c <- first_chr (l_content l) ;;
        if is_open_quote c && (quote_level =? 0) then open_block l blocks
        else Ok (QWrapUp (l_content l), blocks)
  | QWrapUp wrap_up =>
      if is_empty_line l then Ok (state, blocks)
      else Ok (QWrapUp (join_line_strs [wrap_up; l_content l]), blocks)
  end.
Fixpoint quoted_loop (state : quote_state) (blocks : list (list line)) (lines : list (Z * line)) (end_ : option exn)
  : res (quote_state * list (list line)) :=
  match lines with
  | [] => match end_ with Some e => Err e | None => Ok (state, blocks) end
  | (quote_level, l) :: t =>
      ' (state, blocks) <- quoted_step state blocks quote_level l ;;
      quoted_loop state blocks t end_
  end.
(* structure_parser.py:531-589 *)
Definition quoted_extract (lines : list line) (_ : bool) : res (list child * option pystr) :=
  let g := iterate_with_quote_level true lines in
  ' (state, blocks) <- quoted_loop QStart [] (g_items g) (g_end g) ;;
  match state with
  | QWrapUp w => Ok (map ChQuoted blocks, Some w)
  | QWrapUpMaybe => Ok (map ChQuoted blocks, None)
  | _ => Err SubArticleElementNotFoundError
  end.
Definition quoted_sub : sub_parser := mk_sub quoted_first_header true quoted_extract.

(** * The classes *)

(* structure_parser.py:426-428, 479-481 *)
Definition no_subs (_ : option pystr) : res (list sub_parser) := Ok [].
(* structure_parser.py:456-458 *)
Definition numeric_point_subs (_ : option pystr) : res (list sub_parser) :=
  Ok [as_sub (alphabetic_subpoint_conf []) no_subs].
(* structure_parser.py:498-503 *)
Definition alphabetic_point_subs (i : option pystr) : res (list sub_parser) :=
  match i with
  | None => Err AssertionError
  | Some i => Ok [as_sub numeric_subpoint_conf no_subs; as_sub (alphabetic_subpoint_conf i) no_subs]
  end.
(* structure_parser.py:515-517 *)
Definition paragraph_subs (_ : option pystr) : res (list sub_parser) :=
  Ok [quoted_sub; as_sub alphabetic_point_conf alphabetic_point_subs; as_sub numeric_point_conf numeric_point_subs].

Definition parse_paragraph : list line -> bool -> res sae := sae_parse paragraph_conf paragraph_subs.
Definition parse_alphabetic_point : list line -> bool -> res sae := sae_parse alphabetic_point_conf alphabetic_point_subs.
Definition parse_numeric_point : list line -> bool -> res sae := sae_parse numeric_point_conf numeric_point_subs.
Definition parse_alphabetic_subpoint (prefix : pystr) : list line -> bool -> res sae :=
  sae_parse (alphabetic_subpoint_conf prefix) no_subs.
Definition parse_numeric_subpoint : list line -> bool -> res sae := sae_parse numeric_subpoint_conf no_subs.

(** * Articles *)

(* structure_parser.py:626-628 *)
Definition article_extract (l : line) : option pystr := match_article (l_content l).

(* lines[i] *)
Definition line_at (lines : list line) (i : nat) : res line :=
  match nth_error lines i with Some l => Ok l | None => Err IndexError end.

(* structure_parser.py:634-649: the title in brackets and the lines after it *)
Definition article_title (lines : list line) : res (option pystr * list line) :=
  l0 <- line_at lines 0 ;;
  c <- first_chr (l_content l0) ;;
  if (c =? 91)%N then
    e0 <- last_chr (l_content l0) ;;
    if (e0 =? 93)%N then Ok (Some (py_slice 1 (-1) (l_content l0)), skipn 1 lines)
    else
      l1 <- line_at lines 1 ;;
      e1 <- last_chr (l_content l1) ;;
      if (e1 =? 93)%N then
        Ok (Some (join_line_strs [skipn 1 (l_content l0); drop_last (l_content l1)]), skipn 2 lines)
      else
        l2 <- line_at lines 2 ;;
        e2 <- last_chr (l_content l2) ;;
        if (e2 =? 93)%N then
          Ok (Some (join_line_strs [skipn 1 (l_content l0); l_content l1; drop_last (l_content l1)]), skipn 3 lines)
        else Err ValueError
  else Ok (None, lines).

(* structure_parser.py:630-666 *)
Definition article_parse_body (identifier : pystr) (lines : list line) (properly_indented : bool) : res article :=
  ' (title, lines) <- article_title lines ;;
  l0 <- line_at lines 0 ;;
  let lines := if is_empty_line l0 then skipn 1 lines else lines in
  l0 <- line_at lines 0 ;;
  paragraphs <-
    (if opt_eqb str_eqb (extract_identifier paragraph_conf l0) (Some (pc_first paragraph_conf)) then
       ' (ps, wrap_up) <- extract_multiple paragraph_conf paragraph_subs lines properly_indented ;;
       match wrap_up with None => Ok ps | Some _ => Err ValueError end
     else p <- parse_paragraph lines properly_indented ;; Ok [p]) ;;
  new_article identifier title (List.filter (fun p => sae_kind_eqb (s_kind p) KParagraph) paragraphs).

(* structure_parser.py:601-623.  No caller passes extenally_determined_identifier, so it is left out. *)
Definition parse_article (lines : list line) (properly_indented : bool) : res article :=
  l0 <- line_at lines 0 ;;
  match article_extract l0 with
  | None => Err ArticleParsingError
  | Some identifier =>
      pos <- index_sub (u8 "§ ") (l_content l0) ;;
      first_line <- l_slice l0 (Z.of_nat (pos + 2)) None ;;
      match article_parse_body identifier (first_line :: skipn 1 lines) properly_indented with
      | Ok a => Ok a
      | Err _ => Err ArticleParsingError
      end
  end.

(** * Act bodies *)

(* the parsers of STRUCTURE_ELEMENT_PARSERS (structure_parser.py:234-241) *)
Inductive body_parser := BArticle | BStruct (k : struct_kind).
Definition body_parsers : list body_parser :=
  [BArticle; BStruct KBook; BStruct KPart; BStruct KTitle; BStruct KChapter; BStruct KSubtitle].
(* their attributes: strict, last_identifier of each (structure_parser.py:92-94), indent (217-219) *)
Record body_state := mk_state {
  bs_strict : bool;
  bs_last : struct_kind -> pystr;
  bs_indent : option pyfloat
}.
(* structure_parser.py:726-728, 790-792 *)
Definition create_parsers (strict : bool) : body_state := mk_state strict (fun _ => u8 "0") None.

(* structure_parser.py:96-101, 221-222 *)
Definition step_to_next (st : body_state) (p : body_parser) (l : line) : res body_state :=
  match p with
  | BArticle => Ok (mk_state (bs_strict st) (bs_last st) (Some (l_indent l)))
  | BStruct k =>
      e <- struct_extract k l ;;
      let i := match e with None => u8 "0" | Some i => i end in
      Ok (mk_state (bs_strict st) (fun k' => if struct_kind_eqb k' k then i else bs_last st k') (bs_indent st))
  end.
(* structure_parser.py:103-109, 192-200, 224-227 *)
Definition is_header (st : body_state) (p : body_parser) (l previous : line) : res bool :=
  match p with
  | BArticle =>
      if match bs_indent st with Some i => negb (similar_indent (l_indent l) i) | None => false end then Ok false
      else Ok (match article_extract l with None => false | Some _ => true end)
  | BStruct k => struct_is_header k (bs_strict st) (bs_last st k) l previous
  end.
(* structure_parser.py:675-681 *)
Fixpoint get_parser_for_header_line (st : body_state) (l previous : line) (ps : list body_parser) : res (option body_parser) :=
  match ps with
  | [] => Ok None
  | p :: t =>
      h <- is_header st p l previous ;;
      if (h : bool) then Ok (Some p) else get_parser_for_header_line st l previous t
  end.

(* current_element_parser.parse(current_lines, properly_indented) *)
Definition body_parse (p : body_parser) (lines : list line) (properly_indented : bool) : res act_child :=
  match p with
  | BArticle => a <- parse_article lines properly_indented ;; Ok (AArticle a)
  | BStruct k => e <- struct_parse k lines ;; Ok (AStruct e)
  end.

(* structure_parser.py:683-705, the loop *)
Fixpoint parse_elements_loop (st : body_state) (properly_indented : bool) (lines : list (Z * line)) (end_ : option exn)
    (elements : list act_child) (current_lines : list line) (current : option body_parser) (previous : line)
  : res (list act_child) :=
  match lines with
  | [] =>
      match end_ with
      | Some e => Err e
      | None =>
          match current with
          | None => Err AssertionError
          | Some p => e <- body_parse p current_lines properly_indented ;; Ok (elements ++ [e])
          end
      end
  | (quote_level, l) :: t =>
      if negb (quote_level =? 0) then
        parse_elements_loop st properly_indented t end_ elements (current_lines ++ [l]) current previous
      else
        h <- get_parser_for_header_line st l previous body_parsers ;;
        match h with
        | None => parse_elements_loop st properly_indented t end_ elements (current_lines ++ [l]) current l
        | Some p =>
            elements <- (match current with
                         | None => Ok elements
                         | Some c => e <- body_parse c current_lines properly_indented ;; Ok (elements ++ [e])
                         end) ;;
            st <- step_to_next st p l ;;
            parse_elements_loop st properly_indented t end_ elements [l] (Some p) l
        end
  end.
Definition parse_elements (st : body_state) (lines : list line) (properly_indented : bool) : res (list act_child) :=
  let g := iterate_with_quote_level true lines in
  parse_elements_loop st properly_indented (g_items g) (g_end g) [] [] None EMPTY_LINE.

(* structure_parser.py:730-745.  The parsers are new ones and take no steps. *)
Fixpoint find_split_point (lines : list line) (previous : line) : res nat :=
  match lines with
  | [] => Ok O
  | l :: t =>
      h <- get_parser_for_header_line (create_parsers true) l previous body_parsers ;;
      match h with
      | Some _ => Ok O
      | None => n <- find_split_point t l ;; Ok (S n)
      end
  end.
Definition parse_preamble (lines : list line) : res (pystr * list line) :=
  n <- find_split_point lines EMPTY_LINE ;;
  Ok (joined_lines (firstn n lines), skipn n lines).

(* structure_parser.py:715-724 *)
Definition parse_act (identifier : pystr) (publication_date : date) (subject : pystr) (lines : list line) : res act :=
  match (' (preamble, rest) <- parse_preamble lines ;;
         elements <- parse_elements (create_parsers true) rest true ;;
         Ok (preamble, elements)) with
  | Ok (preamble, elements) => Ok (mk_act identifier publication_date subject preamble elements)
  | Err _ => Err ActParsingError
  end.

(** * Block amendments *)

(* the parser of the blocks and the successor relation of its PARSED_TYPE *)
Record block_parser := mk_block {
  bp_extract : line -> option pystr;
  bp_is_next : pystr -> pystr -> res bool;
  bp_parse : list line -> res child
}.
Definition article_block : block_parser :=
  mk_block article_extract article_is_next_identifier
    (fun ls => a <- parse_article ls false ;; Ok (ChArticle a)).
Definition sae_block (p : pconf) (subs_of : option pystr -> res (list sub_parser)) : block_parser :=
  mk_block (extract_identifier p) (sae_is_next_identifier (pc_kind p))
    (fun ls => s <- sae_parse p subs_of ls false ;; Ok (ChSae s)).

(* structure_parser.py:794-812 *)
Fixpoint block_by_block_loop (b : block_parser) (lines : list (Z * line)) (end_ : option exn)
    (current_lines : list line) (last_identifier : pystr) : res (list child) :=
  match lines with
  | [] =>
      match end_ with
      | Some e => Err e
      | None => c <- bp_parse b current_lines ;; Ok [c]
      end
  | (quote_level, l) :: t =>
      let extracted := bp_extract b l in
      found <- (match current_lines, quote_level =? 0, extracted with
                | _ :: _, true, Some i => bp_is_next b last_identifier i
                | _, _, _ => Ok false
                end) ;;
      match (found : bool), extracted with
      | true, Some i =>
          c <- bp_parse b current_lines ;;
          r <- block_by_block_loop b t end_ [l] i ;;
          Ok (c :: r)
      | _, _ => block_by_block_loop b t end_ (current_lines ++ [l]) last_identifier
      end
  end.
Definition do_parse_block_by_block (b : block_parser) (expected_id : pystr) (lines : list line) : res (list child) :=
  let g := iterate_with_quote_level true lines in
  block_by_block_loop b (g_items g) (g_end g) [] expected_id.

(* structure_parser.py:753-760, 814-825 *)
Definition get_parser_and_id (r : reference) : res (block_parser * pystr) :=
  last <- last_component_with_type r ;;
  match last with
  | None => Err AssertionError
  | Some (part, class) =>
      expected_id <- (match part with
                      | RNone => Err AssertionError
                      | RId i => Ok i
                      | RRange a _ => Ok a
                      end) ;;
      b <- (match class with
            | CAct => Err KeyError
            | CArticle => Ok article_block
            | CParagraph => Ok (sae_block paragraph_conf paragraph_subs)
            | CNumericPoint => Ok (sae_block numeric_point_conf numeric_point_subs)
            | CAlphabeticPoint => Ok (sae_block alphabetic_point_conf alphabetic_point_subs)
            | CNumericSubpoint => Ok (sae_block numeric_subpoint_conf no_subs)
            | CAlphabeticSubpoint =>
                Ok (sae_block (alphabetic_subpoint_conf
                                 (match expected_id with [_] => [] | _ => drop_last expected_id end)) no_subs)
            end) ;;
      Ok (b, expected_id)
  end.

Definition act_child_child (c : act_child) : child :=
  match c with AStruct e => ChStruct e | AArticle a => ChArticle a end.

(* structure_parser.py:762-788 *)
Definition parse_block_amendment (position : any_reference) (context_intro context_wrap_up : option pystr)
    (lines : list line) : res sae :=
  match (children <-
           (match position with
            | ASRef _ => cs <- parse_elements (create_parsers false) lines false ;; Ok (map act_child_child cs)
            | ARef r =>
                ' (b, expected_id) <- get_parser_and_id r ;;
                do_parse_block_by_block b expected_id lines
            end) ;;
         new_sae KBlockAmendmentContainer None None context_intro (Some children) context_wrap_up NO_META) with
  | Ok s => Ok s
  | Err _ => Err BlockAmendmentStructureParsingError
  end.
