(* Model of hun_law/output/html.py, with what it uses of xml.etree.ElementTree. *)
From Verif Require Import PyBase NumModel IdModel LineModel DateModel RefModel TreeModel StructModel.
From Coq Require Import Floats.SpecFloat.
Local Open Scope Z_scope.

(** * ElementTree *)

(* An element; text and tail None are taken as '', which is the same for all that follows. *)
Inductive node := Node (tag : pystr) (attrs : list (pystr * pystr)) (text : pystr) (children : list node) (tail : pystr).
Definition n_tag (n : node) := let 'Node t _ _ _ _ := n in t.
Definition n_attrs (n : node) := let 'Node _ a _ _ _ := n in a.
Definition n_text (n : node) := let 'Node _ _ t _ _ := n in t.
Definition n_children (n : node) := let 'Node _ _ _ c _ := n in c.
Definition n_tail (n : node) := let 'Node _ _ _ _ t := n in t.
Definition set_tail (t : pystr) (n : node) : node := let 'Node a b c d _ := n in Node a b c d t.
Definition div (attrs : list (pystr * pystr)) (text : pystr) : node := Node (u8 "div") attrs text [] [].
Definition cls (c : pystr) : list (pystr * pystr) := [(u8 "class", c)].

(* ElementTree._escape_cdata and _escape_attrib_html: "&" is replaced first *)
Definition esc_text (c : N) : pystr :=
  if (c =? 38)%N then u8 "&amp;" else if (c =? 60)%N then u8 "&lt;" else if (c =? 62)%N then u8 "&gt;" else [c].
Definition esc_attr (c : N) : pystr :=
  if (c =? 38)%N then u8 "&amp;" else if (c =? 62)%N then u8 "&gt;" else if (c =? 34)%N then u8 "&quot;" else [c].
(* ElementTree.HTML_EMPTY, of which these are used *)
Definition html_empty : list pystr := [u8 "meta"; u8 "br"; u8 "link"].
(* ElementTree._serialize_html *)
Fixpoint serialize (n : node) : pystr :=
  match n with
  | Node tag attrs text children tail =>
      u8 "<" ++ tag ++ flat_map (fun kv => u8 " " ++ fst kv ++ u8 "=""" ++ flat_map esc_attr (snd kv) ++ u8 """") attrs ++ u8 ">"
      ++ flat_map esc_text text ++ flat_map serialize children
      ++ (if mem_str tag html_empty then [] else u8 "</" ++ tag ++ u8 ">")
      ++ flat_map esc_text tail
  end.

(** * Indentation *)

(* not s or not s.strip() *)
Definition blank (s : pystr) : bool := match str_strip s with [] => true | _ => false end.
(* "\n" + level * "  " *)
Definition indent_str (level : nat) : pystr := 10%N :: repeat 32%N (2 * level).
(* the tail of the last element of a list *)
Fixpoint fix_last (indent : pystr) (l : list node) : list node :=
  match l with
  | [] => []
  | [n] => [if blank (n_tail n) then set_tail indent n else n]
  | n :: t => n :: fix_last indent t
  end.
(* html.py:27-41 *)
Fixpoint indent_node (level : nat) (n : node) : node :=
  match n with
  | Node tag attrs text [] tail => Node tag attrs text [] (if negb (Nat.eqb level 0) && blank tail then indent_str level else tail)
  | Node tag attrs text children tail =>
      Node tag attrs (if blank text then indent_str level ++ u8 "  " else text)
        (fix_last (indent_str level) (map (indent_node (S level)) children))
        (if blank tail then indent_str level else tail)
  end.

(** * Elements *)

(* element.__class__.__name__.lower() *)
Definition struct_class (k : struct_kind) : pystr :=
  match k with KBook => u8 "book" | KPart => u8 "part" | KTitle => u8 "title" | KChapter => u8 "chapter" | KSubtitle => u8 "subtitle" end.
Definition sae_class (k : sae_kind) : pystr :=
  match k with
  | KAlphabeticSubpoint => u8 "alphabeticsubpoint" | KNumericSubpoint => u8 "numericsubpoint"
  | KNumericPoint => u8 "numericpoint" | KAlphabeticPoint => u8 "alphabeticpoint"
  | KBlockAmendmentContainer => u8 "blockamendmentcontainer" | KParagraph => u8 "paragraph"
  end.

(* html.py:44-51 *)
Definition html_struct (e : structural_element) : res (list node) :=
  f <- formatted_identifier e ;;
  Ok [match se_kind e with
      | KSubtitle => div (cls (u8 "se_" ++ struct_class (se_kind e))) (f ++ u8 " " ++ se_title e)
      | _ => Node (u8 "div") (cls (u8 "se_" ++ struct_class (se_kind e))) f [Node (u8 "br") [] [] [] (se_title e)] []
      end].

(* html.py:54-59 *)
Definition get_href (r : reference) : pystr :=
  match r_act r with None => [] | Some a => a ++ u8 ".html" end ++ u8 "#" ++ relative_id_string r.

(* a link to create, and the order of such tuples *)
Record link := mk_link { lk_start : Z; lk_end : Z; lk_href : pystr }.
Definition link_le (a b : link) : bool :=
  (lk_start a <? lk_start b) || ((lk_start a =? lk_start b) && ((lk_end a <? lk_end b) || ((lk_end a =? lk_end b) && negb (str_ltb (lk_href b) (lk_href a))))).
Fixpoint insert_link (x : link) (l : list link) : list link :=
  match l with [] => [x] | y :: t => if link_le x y then x :: l else y :: insert_link x t end.
Definition sort_links (l : list link) : list link := fold_right insert_link [] l.
(* html.py:73-90, what is between the last link and the next: [before], the text before the first, or
   the links so far with their tails *)
Fixpoint link_loop (text : pystr) (prev_start : Z) (links : list link) : res (pystr * list node) :=
  match links with
  | [] => Ok (py_slice prev_start (Z.of_nat (List.length text)) text, [])
  | k :: t =>
      if negb (prev_start <=? lk_start k) then Err AssertionError
      else if negb (lk_start k <? lk_end k) then Err AssertionError
      else
        ' (after, rest) <- link_loop text (lk_end k) t ;;
        Ok (py_slice prev_start (lk_start k) text,
            Node (u8 "a") [(u8 "href", lk_href k)] (py_slice (lk_start k) (lk_end k) text) [] after :: rest)
  end.
(* html.py:62-90; the container's text and children *)
Definition text_with_links (attrs : list (pystr * pystr)) (text : pystr) (current_ref : reference) (outgoing : list outgoing_reference) : res node :=
  let links := map (fun o => mk_link (or_start o) (or_end o) (get_href (relative_to (or_reference o) current_ref))) outgoing in
  ' (before, links) <- link_loop text 0 (sort_links links) ;;
  Ok (Node (u8 "div") attrs before links []).

(* int(x) of a float *)
Definition f_int (x : pyfloat) : res Z :=
  match x with
  | S754_zero _ => Ok 0
  | S754_infinity _ => Err OverflowError
  | S754_nan => Err ValueError
  | S754_finite s m e =>
      let a := match e with Z0 => Zpos m | Zpos p => Zpos m * 2 ^ Zpos p | Zneg p => Zpos m / 2 ^ Zpos p end in
      Ok (if s then - a else a)
  end.
(* min() of floats *)
Definition f_min (l : list pyfloat) : res pyfloat :=
  match l with [] => Err ValueError | x :: t => Ok (fold_left (fun a y => if f_ltb y a then y else a) t x) end.
(* html.py:167-183 *)
Definition quoted_line (offset : pyfloat) (count index : nat) (l : line) : res node :=
  padding <- f_int (f_mul (f_sub (l_indent l) offset) (f_of_Z 2)) ;;
  let padding := if padding <? 0 then 0 else padding in
  let text := l_content l in
  let text := if Nat.eqb index 0 then u8 "„" ++ text else text in
  let text := if Nat.eqb index (count - 1) then text ++ u8 "”" else text in
  let text := match text with [] => [160%N] | _ => text end in
  Ok (div [(u8 "style", u8 "padding-left: " ++ str_of_int padding ++ u8 "px;")] text).
Fixpoint quoted_lines (offset : pyfloat) (count index : nat) (ls : list line) : res (list node) :=
  match ls with [] => Ok [] | l :: t => n <- quoted_line offset count index l ;; r <- quoted_lines offset count (S index) t ;; Ok (n :: r) end.
Definition html_quoted (parent_class : pystr) (ls : list line) : res (list node) :=
  offset <- f_min (map l_indent (List.filter not_empty_line ls)) ;;
  lines <- quoted_lines offset (List.length ls) 0 ls ;;
  Ok [Node (u8 "blockquote") (cls (u8 "quote_in_" ++ parent_class)) [] lines []].

(* truth of an optional string *)
Definition opt_true (s : option pystr) : option pystr := match s with Some (c :: t) => Some (c :: t) | _ => None end.
(* one element if the optional string is not empty *)
Definition when (s : option pystr) (f : pystr -> res node) : res (list node) :=
  match opt_true s with None => Ok [] | Some s => n <- f s ;; Ok [n] end.
(* html.py:138-141, 188-191 *)
Definition id_of (r : reference) : pystr :=
  if match r_act r with Some a => str_eqb a (u8 "EXTERNAL") | None => false end then [] else relative_id_string r.
Definition EXTERNAL : reference := mk_ref (Some (u8 "EXTERNAL")) RNone RNone RNone RNone.

(* html.py:136-164 (html_sae), 93-106 (html_child, one round of the loop), 109-133 (the block
   amendment), 186-203 (html_article).  [text_children]: generate_html_nodes_for_children *)
Fixpoint html_sae (parent_ref : reference) (s : sae) : res (list node) :=
  match s with
  | mk_sae kind identifier text intro children wrap_up meta =>
      let html_children (ref : reference) : res (list node) :=
        match children with
        | None => Err TypeError
        | Some cs =>
            (fix go (cs : list child) : res (list node) :=
               match cs with [] => Ok [] | c :: t => a <- html_child (sae_class kind) ref c ;; b <- go t ;; Ok (a ++ b) end) cs
        end in
      match kind with
      | KBlockAmendmentContainer =>
          first <- when intro (fun t => Ok (div (cls (u8 "blockamendment_text")) (u8 "(" ++ t ++ u8 ")"))) ;;
          cs <- html_children EXTERNAL ;;
          last <- when wrap_up (fun t => Ok (div (cls (u8 "blockamendment_text")) (u8 "(" ++ t ++ u8 ")"))) ;;
          Ok (first ++ [div (cls (u8 "blockamendment_quote")) (u8 "„")]
              ++ [Node (u8 "div") (cls (u8 "blockamendment_container")) [] cs []]
              ++ [div (cls (u8 "blockamendment_quote")) (u8 "”")] ++ last)
      | _ =>
          rel <- relative_reference s ;;
          let current_ref := relative_to rel parent_ref in
          prefix <- header_prefix kind identifier ;;
          let id_element := div [(u8 "id", id_of current_ref); (u8 "class", sae_class kind ++ u8 "_id")] prefix in
          let outgoing := match m_outgoing meta with None => [] | Some l => l end in
          let attrs := cls (sae_class kind ++ u8 "_text") in
          match opt_true text with
          | Some t => n <- text_with_links attrs t current_ref outgoing ;; Ok [id_element; n]
          | None =>
              first <- when intro (fun t => text_with_links attrs t current_ref outgoing) ;;
              cs <- html_children current_ref ;;
              last <- when wrap_up (fun t => Ok (div attrs t)) ;;
              Ok (id_element :: first ++ cs ++ last)
          end
      end
  end
with html_child (parent_class : pystr) (parent_ref : reference) (c : child) : res (list node) :=
  match c with
  | ChArticle a => html_article parent_ref a
  | ChSae s => html_sae parent_ref s
  | ChQuoted ls => html_quoted parent_class ls
  | ChStruct e => html_struct e
  end
with html_article (parent_ref : reference) (a : article) : res (list node) :=
  match a with
  | mk_article identifier title paragraphs =>
      let current_ref := relative_to (mk_ref None (RId identifier) RNone RNone RNone) parent_ref in
      let id_element := div [(u8 "id", id_of current_ref); (u8 "class", u8 "article_id")] (identifier ++ u8 ". §") in
      first <- when title (fun t => Ok (div (cls (u8 "article_title")) (u8 "[" ++ t ++ u8 "]"))) ;;
      cs <- (fix go (ps : list sae) : res (list node) :=
               match ps with [] => Ok [] | p :: t => a <- html_sae current_ref p ;; b <- go t ;; Ok (a ++ b) end) paragraphs ;;
      Ok (id_element :: first ++ cs ++ [div (cls (u8 "space_after_article")) []])
  end.

(* html.py:206-223 *)
Definition html_body (a : act) (indent : bool) : res node :=
  cs <- mapM (fun c => match c with AArticle x => html_article EMPTY_REF x | AStruct e => html_struct e end) (act_children a) ;;
  let title := Node (u8 "div") (cls (u8 "act_title")) (act_identifier a) [Node (u8 "br") [] [] [] (act_subject a)] [] in
  let preamble := match act_preamble a with [] => [] | p => [div (cls (u8 "preamble")) p] end in
  let body := Node (u8 "div") (cls (u8 "act_container")) [] (title :: preamble ++ concat cs) [] in
  Ok (if indent then indent_node 0 body else body).
(* html.py:226-232 *)
Definition html_head (title_text : pystr) : node :=
  Node (u8 "head") [] []
    [Node (u8 "title") [] title_text [] [];
     Node (u8 "meta") [(u8 "http-equiv", u8 "Content-Type"); (u8 "content", u8 "text/html; charset=utf-8")] [] [] [];
     Node (u8 "link") [(u8 "rel", u8 "stylesheet"); (u8 "href", u8 "style.css")] [] [] []] [].
(* html.py:235-244: what is written *)
Definition html_tree (a : act) : res node :=
  body <- html_body a true ;;
  Ok (Node (u8 "html") [] [] [html_head (act_identifier a); Node (u8 "body") [] [10%N] [body] []] []).
Definition html_file (a : act) : res pystr := tree <- html_tree a ;; Ok (u8 "<!DOCTYPE html>" ++ [10%N] ++ serialize tree).
