(* Independent specification of layouts: lines that must be read as a given tree. *)
From Verif Require Import PyBase PyBaseFacts NumModel NumSpec IdModel IdSpec LineModel LineSpec DateModel RefModel RefSpec TreeModel TreeSpec StructSpec.
Local Open Scope Z_scope.

(** * Lines *)

(* every part of the line is a single character, as the extractors make them *)
Definition typed (l : line) : Prop := Forall (fun p => List.length (p_content p) = 1%nat) (l_parts l).
(* [q] quotes are open before the lines, none after them, and none is closed that was not opened *)
Inductive balanced : Z -> list line -> Prop :=
| balanced_end : balanced 0 []
| balanced_line q l ls : 0 <= q + open_after [l] -> balanced (q + open_after [l]) ls -> balanced q (l :: ls).
(* the lines before which no quote is open have the property *)
Inductive outside (P : line -> Prop) : Z -> list line -> Prop :=
| outside_end q : outside P q []
| outside_line q l ls : (q = 0 -> P l) -> outside P (q + open_after [l]) ls -> outside P q (l :: ls).
(* by a point or more to the right *)
Definition stands_deeper (x : pyfloat) (l : line) : Prop :=
  f_ltb x (l_indent l) = true /\ f_ltb (SpecFloat.SFabs (f_sub x (l_indent l))) (f_of_Z 1) = false.

(** * Identifiers *)

(* what can be an identifier in a list of the given type whose first identifier is the given one *)
Inductive item_id : sae_kind -> pystr -> pystr -> Prop :=
| item_paragraph first i n l : numbered i n l -> ~ In 47%N i -> item_id KParagraph first i
| item_number k first i n l : k = KNumericPoint \/ k = KNumericSubpoint -> numbered i n l -> item_id k first i
| item_letter k prefix c : k = KAlphabeticPoint \/ k = KAlphabeticSubpoint -> small_letter c ->
    item_id k (prefix ++ u8 "a") (prefix ++ [c])
| item_digraph k first i : k = KAlphabeticPoint \/ k = KAlphabeticSubpoint -> i = u8 "ny" \/ i = u8 "sz" -> item_id k first i.
(* 4 or 4b, then 5; 4 then 4a or 4/a; 4a then 4b; f then g, ny, o or another letter of the alphabet; bf then bg *)
Inductive next_item : sae_kind -> pystr -> pystr -> Prop :=
| next_plain k a b n l : is_numeric_kind k -> numbered a n l -> numbered b (n + 1)%N None -> next_item k a b
| next_first_letter k d slash : is_numeric_kind k -> ascii_digits d -> d <> [] -> slash = [] \/ slash = [47%N] ->
    next_item k d (d ++ slash ++ u8 "a")
| next_letter k d slash slash' c : is_numeric_kind k -> ascii_digits d -> d <> [] ->
    slash = [] \/ slash = [47%N] -> slash' = [] \/ slash' = [47%N] -> small_letter c -> small_letter (c + 1) ->
    next_item k (d ++ slash ++ [c]) (d ++ slash' ++ [(c + 1)%N])
| next_alphabet k a b : k = KAlphabeticPoint \/ k = KAlphabeticSubpoint /\ List.length a = 1%nat ->
    follows_in list_alphabet a b -> next_item k a b
| next_prefixed p x : small_letter (x + 1) -> next_item KAlphabeticSubpoint [p; x] [p; (x + 1)%N].

Definition begins_with (s : pystr) (l : line) : Prop := exists t, l_content l = s ++ t.
(* the line does not start the next item after [i], whose header stands at [x]: it is deeper, or is not
   numbered, or has a number that does not follow (of the same length, for subpoints) *)
Definition quiet (k : sae_kind) (first i : pystr) (x : pyfloat) (l : line) : Prop :=
  forall j, item_id k first j -> begins_with (header k j) l ->
    stands_deeper x l \/
    (~ follows k i j /\
     (k = KAlphabeticSubpoint -> List.length i = 1%nat \/ (List.length i = 2 /\ List.length j = 2)%nat)).
(* no list and no quoted block can start at the line in an element *)
Definition starts_nothing (k : sae_kind) (i : option pystr) (l : line) : Prop :=
  (forall ck first, child_list k i ck first -> ~ begins_with (header ck first) l) /\
  (k = KParagraph -> forall c, opens c -> ~ begins_with [c] l).

(** * Elements *)

(* l1 is the first line without its header *)
Definition header_of (k : sae_kind) (first : pystr) (i : option pystr) (l0 l1 : line) : Prop :=
  typed l0 /\ typed l1 /\
  match i with
  | Some i => item_id k first i /\ l_content l0 = header k i ++ l_content l1
  | None => k = KParagraph /\ l_content l0 = l_content l1 /\
      forall j, item_id k first j -> ~ begins_with (header k j) l0
  end.

(* The lines from the header of the last item on, those of the item alone, and the text after the list.
   If the text is properly indented, the text after the list starts at the first line that is not deeper than
   the header; otherwise after the last line that ends early. *)
Inductive last_item (properly_indented : bool) : sae_kind -> list line -> list line -> option pystr -> Prop :=
| item_alone k ls : k = KParagraph \/ k = KNumericSubpoint -> last_item properly_indented k ls ls None
| item_to_end k ls l kept : k <> KParagraph -> k <> KNumericSubpoint -> without_blanks ls (l :: kept) ->
    (if properly_indented then Forall (fun x => f_ltb (l_indent x) (f_add (l_indent l) (f_of_Z 1)) = false) kept
     else forall a x y b, l :: kept = a ++ x :: y :: b -> f_ltb (f_of_Z 20) (l_margin_right x) = false) ->
    last_item properly_indented k ls (l :: kept) None
| item_and_text k ls l kept y wrap t : k <> KParagraph -> k <> KNumericSubpoint -> without_blanks ls ((l :: kept) ++ y :: wrap) ->
    joined (map l_content (y :: wrap)) t ->
    (if properly_indented then
       Forall (fun x => f_ltb (l_indent x) (f_add (l_indent l) (f_of_Z 1)) = false) kept /\
       f_ltb (l_indent y) (f_add (l_indent l) (f_of_Z 1)) = true
     else
       f_ltb (f_of_Z 20) (l_margin_right (last kept l)) = true /\
       forall a x z b, y :: wrap = a ++ x :: z :: b -> f_ltb (f_of_Z 20) (l_margin_right x) = false) ->
    last_item properly_indented k ls (l :: kept) (Some t).

(* Quoted blocks, blank lines around them, and perhaps a text after them.  The lines in the tree are those of the
   page without the quotation marks (what is left of a line when it is cut is the subject of C13). *)
Inductive quotes : list line -> list (list line) -> option pystr -> Prop :=
| quotes_end ls : Forall blank ls -> quotes ls [] None
| quotes_text blanks l ls t : Forall blank blanks -> ~ blank l -> (forall c, opens c -> ~ begins_with [c] l) ->
    text_in (l :: ls) t -> quotes (blanks ++ l :: ls) [] (Some t)
| quotes_line blanks l l' c t ls bs w : Forall blank blanks -> opens c -> l_content l = c :: t ++ [8221%N] ->
    open_after [l] = 0 -> l_slice l 1 (Some (-1)) = Ok l' ->
    quotes ls bs w -> quotes (blanks ++ l :: ls) ([l'] :: bs) w
| quotes_lines blanks l l' c mid e e' ls bs w : Forall blank blanks -> opens c -> begins_with [c] l -> ~ ends_quote l ->
    (forall a x b, mid = a ++ x :: b -> ends_quote x -> open_after (l :: a ++ [x]) <> 0) ->
    ends_quote e -> open_after (l :: mid ++ [e]) = 0 ->
    l_slice l 1 None = Ok l' -> l_slice e 0 (Some (-1)) = Ok e' ->
    quotes ls bs w -> quotes (blanks ++ (l :: mid ++ [e]) ++ ls) ((l' :: mid ++ [e']) :: bs) w.

(* [layout pi k first ls s]: the lines ls are a layout of the element s, of type k in a list that starts with first *)
Inductive layout (pi : bool) : sae_kind -> pystr -> list line -> sae -> Prop :=
| layout_text k first i l0 l1 ls t :
    header_of k first i l0 l1 -> Forall typed ls -> text_in (l1 :: ls) t ->
    balanced 0 (l0 :: ls) -> outside (starts_nothing k i) 0 (l1 :: ls) ->
    layout pi k first (l0 :: ls) (mk_sae k i (Some t) None None None NO_META)
| layout_parts k first i l0 l1 ls more rest t ck cfirst es w :
    header_of k first i l0 l1 -> Forall typed (ls ++ more :: rest) -> text_in (l1 :: ls) t ->
    balanced 0 (l0 :: ls) -> outside (starts_nothing k i) 0 (l1 :: ls) ->
    child_list k i ck cfirst -> balanced 0 (more :: rest) ->
    layouts pi ck cfirst cfirst (more :: rest) es w -> (2 <= List.length es)%nat ->
    layout pi k first (l0 :: ls ++ more :: rest) (mk_sae k i None (Some t) (Some (map ChSae es)) w NO_META)
| layout_quoted first i l0 l1 ls more rest t c bs w :
    header_of KParagraph first i l0 l1 -> Forall typed (ls ++ more :: rest) -> text_in (l1 :: ls) t ->
    balanced 0 (l0 :: ls) -> outside (starts_nothing KParagraph i) 0 (l1 :: ls) ->
    opens c -> begins_with [c] more -> balanced 0 (more :: rest) -> quotes (more :: rest) bs w -> bs <> [] ->
    layout pi KParagraph first (l0 :: ls ++ more :: rest)
      (mk_sae KParagraph i None (Some t) (Some (map ChQuoted bs)) w NO_META)
with layouts (pi : bool) : sae_kind -> pystr -> pystr -> list line -> list sae -> option pystr -> Prop :=
| layouts_last k first i l ls kept e w :
    item_id k first i -> begins_with (header k i) l -> outside (quiet k first i (l_indent l)) (open_after [l]) ls ->
    last_item pi k (l :: ls) kept w -> layout pi k first kept e -> s_identifier e = Some i ->
    layouts pi k first i (l :: ls) [e] w
| layouts_more k first i j l ls l' rest e es w :
    item_id k first i -> begins_with (header k i) l -> outside (quiet k first i (l_indent l)) (open_after [l]) ls ->
    layout pi k first (l :: ls) e -> s_identifier e = Some i -> next_item k i j -> ~ stands_deeper (l_indent l) l' ->
    layouts pi k first j (l' :: rest) es w -> layouts pi k first i (l :: ls ++ l' :: rest) (e :: es) w.
Scheme layout_mind := Minimality for layout Sort Prop
  with layouts_mind := Minimality for layouts Sort Prop.
Combined Scheme layout_mutind from layout_mind, layouts_mind.

(** * Articles *)

Inductive paragraphs_layout (pi : bool) : list line -> list sae -> Prop :=
| layout_one l ls p : ~ blank l -> layout pi KParagraph (u8 "1") (l :: ls) p -> s_identifier p <> Some (u8 "1") ->
    paragraphs_layout pi (l :: ls) [p]
| layout_numbered ls ps : balanced 0 ls -> layouts pi KParagraph (u8 "1") (u8 "1") ls ps None -> paragraphs_layout pi ls ps.
(* the number and the section sign, a title in brackets on one or two lines, at most one blank line, the paragraphs;
   l1 is the first line without the number and the sign *)
Inductive article_layout (pi : bool) : list line -> article -> Prop :=
| layout_article i space l0 l1 t ls title rest blanks body ps :
    article_number i -> space = [] \/ space = [32%N] ->
    l_content l0 = i ++ u8 "." ++ space ++ u8 "§ " ++ t -> ~ In 10%N t ->
    l_slice l0 (Z.of_nat (List.length (i ++ u8 "." ++ space ++ u8 "§ "))) None = Ok l1 ->
    titled (l1 :: ls) title rest -> rest = blanks ++ body -> Forall blank blanks -> (List.length blanks <= 1)%nat ->
    paragraphs_layout pi body ps -> article_layout pi (l0 :: ls) (mk_article i title ps).

(** * Rendering *)

(* the text on a line that starts at a given distance from the margin, one part for each character *)
Definition line_of (x : Z) (s : pystr) : line :=
  mk_line (match s with
           | [] => []
           | c :: t => mk_part (f_of_Z x) [c] false :: map (fun c => mk_part (f_of_Z 5) [c] false) t
           end) (f_of_Z 5).
(* where the first line of an element starts; the text after its parts starts 10 points to the right of it *)
Definition margin_of (k : sae_kind) : Z :=
  match k with
  | KParagraph | KBlockAmendmentContainer => 20
  | KAlphabeticPoint | KNumericPoint => 40
  | KAlphabeticSubpoint | KNumericSubpoint => 60
  end.
Definition header_text (k : sae_kind) (i : option pystr) : pystr := match i with Some i => header k i | None => [] end.
(* every text of the element on its own line, the parts of the element further to the right than itself *)
Fixpoint render (s : sae) : list line :=
  match s with
  | mk_sae k i text intro children wrap_up _ =>
      match text, intro with
      | Some t, _ => [line_of (margin_of k) (header_text k i ++ t)]
      | None, Some t => [line_of (margin_of k) (header_text k i ++ t)]
      | None, None => []
      end ++
      match children with
      | Some cs => flat_map (fun c => match c with ChSae e => render e | _ => [] end) cs
      | None => []
      end ++
      match wrap_up with Some t => [line_of (margin_of k + 10) t] | None => [] end
  end.
(* the first items of the lists that there are *)
Definition list_start (first : pystr) : Prop := first = u8 "1" \/ exists prefix, Forall small_letter prefix /\ first = prefix ++ u8 "a".
(* a text without quotation marks that does not look like the start of an item *)
Definition ordinary (t : pystr) : Prop :=
  t <> [] /\ (forall c, In c t -> c <> 8220%N /\ c <> 8221%N /\ c <> 8222%N) /\
  forall k first i u, list_start first -> item_id k first i -> t <> header k i ++ u.
(* elements of type [k] in a list that starts with [first]; ordinary texts, lists without gaps *)
Inductive clean : sae_kind -> pystr -> sae -> Prop :=
| clean_text k first i t : ordinary t -> match i with Some i => item_id k first i | None => k = KParagraph end ->
    clean k first (mk_sae k i (Some t) None None None NO_META)
| clean_parts k first i t ck cf es w : ordinary t -> match i with Some i => item_id k first i | None => k = KParagraph end ->
    child_list k i ck cf -> cleans ck cf cf es -> (2 <= List.length es)%nat ->
    match w with Some w => ordinary w /\ ck <> KNumericSubpoint | None => True end ->
    clean k first (mk_sae k i None (Some t) (Some (map ChSae es)) w NO_META)
with cleans : sae_kind -> pystr -> pystr -> list sae -> Prop :=
| cleans_last k first i e : item_id k first i -> clean k first e -> s_identifier e = Some i -> cleans k first i [e]
| cleans_more k first i j e es : item_id k first i -> clean k first e -> s_identifier e = Some i -> next_item k i j ->
    cleans k first j es -> cleans k first i (e :: es).
Scheme clean_mind := Minimality for clean Sort Prop
  with cleans_mind := Minimality for cleans Sort Prop.
Combined Scheme clean_mutind from clean_mind, cleans_mind.
(* the number and the title on a line, then the paragraphs *)
Definition render_article (i title : pystr) (ps : list sae) : list line :=
  line_of 20 (i ++ u8 ". § [" ++ title ++ u8 "]") :: flat_map render ps.
(* one paragraph, perhaps without a number, or several *)
Inductive clean_paragraphs : list sae -> Prop :=
| clean_one p : clean KParagraph (u8 "1") p -> s_identifier p <> Some (u8 "1") -> clean_paragraphs [p]
| clean_numbered ps : cleans KParagraph (u8 "1") (u8 "1") ps -> clean_paragraphs ps.
