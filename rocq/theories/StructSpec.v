(* Independent specification of structure parsing: how lines are laid out and what they mean. *)
From Verif Require Import PyBase PyBaseFacts NumModel NumSpec IdModel IdSpec LineModel LineSpec DateModel RefModel RefSpec TreeModel TreeSpec.
Local Open Scope Z_scope.

(** * Lines *)

(* a line with nothing on it *)
Definition blank (l : line) : Prop := l_parts l = [].
(* the last part of the line is a single character *)
Definition single_end (l : line) : Prop :=
  match rev (l_parts l) with [] => True | p :: _ => List.length (p_content p) = 1%nat end.
(* [r] is what is left of [ls] without the blank lines *)
Definition without_blanks (ls r : list line) : Prop := picks (fun l => ~ blank l) ls r.
(* the text written in some lines *)
Definition text_in (ls : list line) (t : pystr) : Prop :=
  exists r, without_blanks ls r /\ joined (map l_content r) t.

(** * Numbering *)

Definition small_letter (c : N) : Prop := (97 <= c <= 122)%N.
Definition capital_letter (c : N) : Prop := (65 <= c <= 90)%N.
(* a number with perhaps a letter: 12, 12a or 12/a *)
Inductive numbered : pystr -> N -> option N -> Prop :=
| numbered_plain d : ascii_digits d -> d <> [] -> numbered d (digits_val d) None
| numbered_letter d c : ascii_digits d -> d <> [] -> small_letter c -> numbered (d ++ [c]) (digits_val d) (Some c)
| numbered_slash d c : ascii_digits d -> d <> [] -> small_letter c -> numbered (d ++ [47%N; c]) (digits_val d) (Some c).

Definition is_numeric_kind (k : sae_kind) : Prop := k = KParagraph \/ k = KNumericPoint \/ k = KNumericSubpoint.

(* the second identifier comes directly after the first one *)
Inductive follows : sae_kind -> pystr -> pystr -> Prop :=
| follows_number k a b n l m j :
    is_numeric_kind k -> numbered a n l -> numbered b m j -> numeric_successor n l m j -> follows k a b
| follows_letter k a b :
    k = KAlphabeticPoint \/ k = KAlphabeticSubpoint /\ List.length a = 1%nat ->
    follows_in list_alphabet a b -> follows k a b
| follows_prefixed p x : small_letter (x + 1) -> follows KAlphabeticSubpoint [p; x] [p; (x + 1)%N].

(* what stands before the text of an element *)
Definition header (k : sae_kind) (i : pystr) : pystr :=
  match k with
  | KParagraph => u8 "(" ++ i ++ u8 ") "
  | KAlphabeticPoint | KAlphabeticSubpoint => i ++ u8 ") "
  | KNumericPoint | KNumericSubpoint => i ++ u8 ". "
  | KBlockAmendmentContainer => []
  end.
(* [l1] is [l0] without the header; only paragraphs can do without *)
Definition headed (k : sae_kind) (i : option pystr) (l0 l1 : line) : Prop :=
  match i with
  | Some i => l_content l0 = header k i ++ l_content l1
  | None => k = KParagraph /\ l_content l0 = l_content l1
  end.

(* the lists that an element can be broken into, and their first identifiers *)
Inductive child_list : sae_kind -> option pystr -> sae_kind -> pystr -> Prop :=
| points i : child_list KParagraph i KAlphabeticPoint (u8 "a")
| numbered_points i : child_list KParagraph i KNumericPoint (u8 "1")
| subpoints_of_numbered i : child_list KNumericPoint i KAlphabeticSubpoint (u8 "a")
| numbered_subpoints i : child_list KAlphabeticPoint i KNumericSubpoint (u8 "1")
| subpoints i : child_list KAlphabeticPoint (Some i) KAlphabeticSubpoint (i ++ u8 "a").

(** * Quoted blocks *)

Definition opens (q : N) : Prop := q = 8222%N \/ q = 8220%N.
Definition ends_quote (l : line) : Prop := exists t, l_content l = t ++ [8221%N].
(* the block [b] is written with quotation marks in [ls].  A block on one line ends with a closing mark;
   one on several lines ends at the first line that has one at its end and closes all open quotes. *)
Inductive quoted_block_in : list line -> list line -> Prop :=
| block_line l l' q : opens q -> l_content l = q :: l_content l' ++ [8221%N] -> quoted_block_in [l] [l']
| block_lines l l' mid e e' q :
    opens q -> l_content l = q :: l_content l' -> ~ ends_quote l ->
    (forall a x b, mid = a ++ x :: b -> ends_quote x -> open_after (l :: a ++ [x]) <> 0) ->
    l_content e = l_content e' ++ [8221%N] -> open_after (l :: mid ++ [e]) = 0 ->
    quoted_block_in (l :: mid ++ [e]) (l' :: mid ++ [e']).
(* blocks with blank lines between them, then perhaps a text; [q] quotes are open at the start *)
Inductive quoted_blocks_in (q : Z) : list line -> list (list line) -> option pystr -> Prop :=
| no_more_blocks ls : Forall blank ls -> quoted_blocks_in q ls [] None
| text_after_blocks blanks l ls t : Forall blank blanks -> ~ blank l ->
    (q = 0 -> forall c r, l_content l = c :: r -> ~ opens c) ->
    text_in (l :: ls) t -> quoted_blocks_in q (blanks ++ l :: ls) [] (Some t)
| one_more_block blanks b b' ls bs w : Forall blank blanks -> q = 0 -> quoted_block_in b b' ->
    quoted_blocks_in (open_after b) ls bs w -> quoted_blocks_in q (blanks ++ b ++ ls) (b' :: bs) w.

(** * Elements *)

(* the lines of the last element of a list and the text after the list *)
Inductive last_lines : sae_kind -> list line -> list line -> option pystr -> Prop :=
| last_all k ls : k = KParagraph \/ k = KNumericSubpoint -> last_lines k ls ls None
| last_no_wrap_up k ls kept : without_blanks ls kept -> last_lines k ls kept None
| last_wrap_up k ls kept wrap t : k <> KParagraph -> k <> KNumericSubpoint ->
    without_blanks ls (kept ++ wrap) -> kept <> [] -> wrap <> [] ->
    joined (map l_content wrap) t -> last_lines k ls kept (Some t).

(* [element k ls s]: the lines ls write the element s, of type k *)
Inductive element : sae_kind -> list line -> sae -> Prop :=
| element_text k i l0 l1 ls t :
    headed k i l0 l1 -> text_in (l1 :: ls) t ->
    element k (l0 :: ls) (mk_sae k i (Some t) None None None NO_META)
| element_parts k i l0 l1 ls intro t rest children wrap_up :
    headed k i l0 l1 -> l1 :: ls = intro ++ rest -> intro <> [] -> text_in intro t ->
    open_after intro = 0 -> parts k i rest children wrap_up ->
    element k (l0 :: ls) (mk_sae k i None (Some t) (Some children) wrap_up NO_META)
with parts : sae_kind -> option pystr -> list line -> list child -> option pystr -> Prop :=
| parts_list k i ck first ls es w :
    child_list k i ck first -> elements ck first ls es w -> (2 <= List.length es)%nat ->
    parts k i ls (map ChSae es) w
| parts_quoted i ls bs w :
    quoted_blocks_in 0 ls bs w -> bs <> [] -> parts KParagraph i ls (map ChQuoted bs) w
(* a list of elements starting with the given identifier; quotes do not reach from one to another *)
with elements : sae_kind -> pystr -> list line -> list sae -> option pystr -> Prop :=
| elements_last k i ls kept e w :
    last_lines k ls kept w -> element k kept e -> s_identifier e = Some i -> elements k i ls [e] w
| elements_more k i j group ls e es w :
    element k group e -> s_identifier e = Some i -> open_after group = 0 -> follows k i j ->
    elements k j ls es w -> elements k i (group ++ ls) (e :: es) w.

(** * Articles *)

(* a number, perhaps with a slash and a capital, perhaps after a book number and a colon *)
Inductive article_number : pystr -> Prop :=
| article_plain d : ascii_digits d -> d <> [] -> article_number d
| article_inserted d c : ascii_digits d -> d <> [] -> capital_letter c -> article_number (d ++ [47%N; c])
| article_in_book b i : ascii_digits b -> b <> [] -> ~ In 58%N i -> article_number i -> article_number (b ++ 58%N :: i).

(* the title in brackets on one or two lines *)
Inductive titled : list line -> option pystr -> list line -> Prop :=
| untitled l ls c t : l_content l = c :: t -> c <> 91%N -> titled (l :: ls) None (l :: ls)
| title_line l ls t : l_content l = 91%N :: t ++ [93%N] -> titled (l :: ls) (Some t) ls
| title_two_lines l l' ls t t' j : l_content l = 91%N :: t -> (forall u, l_content l <> u ++ [93%N]) ->
    l_content l' = t' ++ [93%N] -> joined [t; t'] j -> titled (l :: l' :: ls) (Some j) ls.

Inductive paragraphs_in : list line -> list sae -> Prop :=
| one_paragraph ls p : element KParagraph ls p -> s_identifier p <> Some (u8 "1") -> paragraphs_in ls [p]
| more_paragraphs ls ps : elements KParagraph (u8 "1") ls ps None -> paragraphs_in ls ps.


(* A title of three lines is read wrongly: the second line is there twice, the third one not at all. *)
Inductive repeated_title : list line -> option pystr -> list line -> Prop :=
| title_three_lines l l' l'' ls t t' c j :
    l_content l = 91%N :: t -> (forall u, l_content l <> u ++ [93%N]) ->
    l_content l' = t' ++ [c] -> c <> 93%N -> (exists u, l_content l'' = u ++ [93%N]) ->
    joined [t; l_content l'; t'] j -> repeated_title (l :: l' :: l'' :: ls) (Some j) ls.

(* the lines write an article: number, section sign, title, at most one blank line, paragraphs *)
Inductive article_in : list line -> article -> Prop :=
| article_written l0 l1 ls i space title rest blanks body ps :
    article_number i -> space = [] \/ space = [32%N] ->
    l_content l0 = i ++ u8 "." ++ space ++ u8 "§ " ++ l_content l1 ->
    titled (l1 :: ls) title rest \/ repeated_title (l1 :: ls) title rest ->
    rest = blanks ++ body -> Forall blank blanks -> (List.length blanks <= 1)%nat ->
    paragraphs_in body ps -> article_in (l0 :: ls) (mk_article i title ps).

(** * Headings *)

Definition special_headings : list pystr := [u8 "ÁLTALÁNOS RÉSZ"; u8 "KÜLÖNÖS RÉSZ"; u8 "ZÁRÓ RÉSZ"].
Definition ordinal_of (n : Z) (t : pystr) : Prop :=
  1 <= n <= 100 /\ str_lower t = nth (Z.to_nat (n - 1)) hungarian_ordinals [].
(* the same letters, but some of them may be capitals *)
Definition in_any_case (s lower : pystr) : Prop :=
  Forall2 (fun c d => c = d \/ small_letter d /\ (c + 32 = d)%N) s lower.
Inductive subtitle_number : pystr -> Prop :=
| subtitle_plain d : ascii_digits d -> d <> [] -> subtitle_number d
| subtitle_inserted d c : ascii_digits d -> d <> [] -> capital_letter c -> subtitle_number (d ++ [47%N; c]).

(* [heading k s i]: the text s is the heading of the element i of type k.  What the numerals of titles and
   chapters mean is the subject of C01 and C02. *)
Inductive heading : struct_kind -> pystr -> pystr -> Prop :=
| heading_book t n : ordinal_of n t -> heading KBook (t ++ u8 " KÖNYV") (str_of_int n)
| heading_part t n : ordinal_of n t -> heading KPart (t ++ u8 " RÉSZ") (str_of_int n)
| heading_special t n : nth_error special_headings n = Some t -> heading KPart t (str_of_int (Z.of_nat n + 1))
| heading_title t i : roman_to_arabic_with_postfix t = Ok i -> heading KTitle (t ++ u8 ". CÍM") i
| heading_chapter t i suffix : roman_to_arabic_with_postfix t = Ok i -> in_any_case suffix (u8 ". fejezet") ->
    heading KChapter (t ++ suffix) i
| heading_subtitle i t : subtitle_number i -> heading KSubtitle (i ++ u8 ". " ++ t) i.

(* the lines write a structural element: the heading, then the title *)
Inductive struct_in : list line -> structural_element -> Prop :=
| struct_titled k l ls i t : k <> KSubtitle -> heading k (l_content l) i -> ~ In (l_content l) special_headings ->
    text_in ls t -> struct_in (l :: ls) (mk_struct k i t false)
| struct_special l ls n : nth_error special_headings n = Some (l_content l) ->
    struct_in (l :: ls) (mk_struct KPart (str_of_int (Z.of_nat n + 1)) [] true)
| struct_subtitle l ls i t : heading KSubtitle (l_content l) i -> text_in (l :: ls) (i ++ u8 ". " ++ t) ->
    struct_in (l :: ls) (mk_struct KSubtitle i t false)
| struct_unnumbered l ls t : (forall i, ~ heading KSubtitle (l_content l) i) -> text_in (l :: ls) t ->
    struct_in (l :: ls) (mk_struct KSubtitle [] t false).

(** * Bodies of acts *)

Definition next_last (last : struct_kind -> pystr) (e : structural_element) : struct_kind -> pystr :=
  fun k => if struct_kind_eqb k (se_kind e) then match se_identifier e with [] => u8 "0" | i => i end else last k.
(* the lines write the elements, one after the other; quotes do not reach from one to another.  [last] has the
   last number of each type: if it is strict, the next number is 1 or follows the last one. *)
Inductive body_in (strict : bool) : (struct_kind -> pystr) -> list line -> list act_child -> Prop :=
| body_end last : body_in strict last [] []
| body_article last group ls a cs : article_in group a -> open_after group = 0 ->
    body_in strict last ls cs -> body_in strict last (group ++ ls) (AArticle a :: cs)
| body_struct last group ls e cs : struct_in group e -> open_after group = 0 ->
    (strict = true -> se_identifier e <> [] ->
       se_identifier e = u8 "1" \/ is_next_numeric_identifier (last (se_kind e)) (se_identifier e) = Ok true) ->
    body_in strict (next_last last e) ls cs -> body_in strict last (group ++ ls) (AStruct e :: cs).

(** * What can be said about an element without looking at the lines *)

(* siblings: the first has the identifier, each of the others the one that follows *)
Inductive numbered_from (k : sae_kind) : pystr -> list sae -> Prop :=
| numbered_one i e : s_kind e = k -> s_identifier e = Some i -> numbered_from k i [e]
| numbered_more i j e es : s_kind e = k -> s_identifier e = Some i -> follows k i j ->
    numbered_from k j es -> numbered_from k i (e :: es).
(* the children are quoted blocks, or elements numbered from the first number without gaps and repetitions *)
Definition well_numbered (s : sae) : Prop :=
  forall cs, s_children s = Some cs ->
    (exists bs, cs = map ChQuoted bs) \/
    (exists ck first es, cs = map ChSae es /\ child_list (s_kind s) (s_identifier s) ck first /\
       numbered_from ck first es /\ NoDup (map s_identifier es) /\ (2 <= List.length es)%nat).

(* the characters other than spaces *)
Definition ink (s : pystr) : pystr := List.filter (fun c => negb (c =? 32)%N) s.
(* the element read aloud, with the headers and quotation marks *)
Inductive spoken : sae -> pystr -> Prop :=
| spoken_text k i t m :
    spoken (mk_sae k i (Some t) None None None m) (match i with Some i => header k i | None => [] end ++ t)
| spoken_parts k i intro cs t w m : spoken_children cs t ->
    spoken (mk_sae k i None (Some intro) (Some cs) w m)
      (match i with Some i => header k i | None => [] end ++ intro ++ t ++ match w with Some w => w | None => [] end)
with spoken_children : list child -> pystr -> Prop :=
| spoken_nobody : spoken_children [] []
| spoken_element s t cs u : spoken s t -> spoken_children cs u -> spoken_children (ChSae s :: cs) (t ++ u)
| spoken_block b q cs u : opens q -> spoken_children cs u ->
    spoken_children (ChQuoted b :: cs) (q :: whole_text b ++ [8221%N] ++ u).

(* the element starts at one of the lines, where no quotes are open *)
Definition begins (ls : list line) (x : sae) : Prop :=
  exists before l after i t, ls = before ++ l :: after /\ open_after before = 0 /\
    s_identifier x = Some i /\ l_content l = header (s_kind x) i ++ t.

(** * Headings of articles in an act *)

Definition finite (x : pyfloat) : Prop :=
  match x with SpecFloat.S754_zero _ | SpecFloat.S754_finite _ _ _ => True | _ => False end.
Definition article_heading (s i : pystr) : Prop :=
  article_number i /\ exists space t, (space = [] \/ space = [32%N]) /\ s = i ++ u8 "." ++ space ++ u8 "§ " ++ t.
(* the numbers of the articles that start in the lines, if [q] quotes are open before them; their headings
   stand at the distance [x] from the margin *)
Inductive article_headings (x : pyfloat) : Z -> list line -> list pystr -> Prop :=
| headings_end q : article_headings x q [] []
| headings_one q l ls i is : q = 0 -> article_heading (l_content l) i -> l_indent l = x ->
    article_headings x (q + open_after [l]) ls is -> article_headings x q (l :: ls) (i :: is)
| headings_none q l ls is : q <> 0 \/ (forall i, ~ article_heading (l_content l) i) ->
    article_headings x (q + open_after [l]) ls is -> article_headings x q (l :: ls) is.
Definition articles_of (cs : list act_child) : list article :=
  flat_map (fun c => match c with AArticle a => [a] | AStruct _ => [] end) cs.

(** * How structural elements are printed *)

(* what may follow the number of a title or chapter *)
Definition roman_postfix (p : pystr) : Prop :=
  (forall c t, p = c :: t -> ~ (48 <= c <= 57)%N /\ ~ In c roman_letters) /\ ~ In 10%N p /\ str_upper p = p.
(* the elements with a number that can be printed *)
Inductive in_range : structural_element -> Prop :=
| range_book n t : 1 <= n <= 100 -> in_range (mk_struct KBook (str_of_int n) t false)
| range_part n t : 1 <= n <= 100 -> in_range (mk_struct KPart (str_of_int n) t false)
| range_special n : 1 <= n <= 3 -> in_range (mk_struct KPart (str_of_int n) [] true)
| range_title n p t : 1 <= n -> roman_postfix p -> in_range (mk_struct KTitle (str_of_int n ++ p) t false)
| range_chapter n p t : 1 <= n -> roman_postfix p -> in_range (mk_struct KChapter (str_of_int n ++ p) t false)
| range_subtitle i t : subtitle_number i -> in_range (mk_struct KSubtitle i t false)
| range_unnumbered t : in_range (mk_struct KSubtitle [] t false).
(* the lines of an element whose formatted identifier is s *)
Inductive heading_lines (e : structural_element) (s : pystr) : list line -> Prop :=
| lines_titled l ls : se_kind e <> KSubtitle -> se_special e = false -> l_content l = s -> text_in ls (se_title e) ->
    heading_lines e s (l :: ls)
| lines_special l ls : se_special e = true -> l_content l = s -> heading_lines e s (l :: ls)
| lines_subtitle l ls t : se_kind e = KSubtitle -> se_identifier e <> [] -> l_content l = s ++ u8 " " ++ t ->
    text_in (l :: ls) (s ++ u8 " " ++ se_title e) -> heading_lines e s (l :: ls)
| lines_unnumbered l ls : se_kind e = KSubtitle -> se_identifier e = [] -> (forall i, ~ heading KSubtitle (l_content l) i) ->
    text_in (l :: ls) (se_title e) -> heading_lines e s (l :: ls).
