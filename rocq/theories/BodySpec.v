(* Independent specification of the layout of acts: lines that must be read as given articles and structural elements. *)
From Verif Require Import PyBase PyBaseFacts NumModel NumSpec IdModel IdSpec LineModel LineSpec DateModel RefModel RefSpec TreeModel TreeSpec StructSpec LayoutSpec.
Local Open Scope Z_scope.

(** * Headings *)

(* as far from the margin as [x], within a point; everything if there is no such distance yet *)
Definition near (x : option pyfloat) (l : line) : Prop :=
  match x with None => True | Some x => f_ltb (SpecFloat.SFabs (f_sub (l_indent l) x)) (f_of_Z 1) = true end.
Definition follows_number (a b : pystr) : Prop :=
  exists s n l s' m j, plain_letter l /\ plain_letter j /\ a = numeric_id s n l /\ b = numeric_id s' m j /\ numeric_successor n l m j.
Definition skips_number (a b : pystr) : Prop :=
  exists s n l s' m j, plain_letter l /\ plain_letter j /\ a = numeric_id s n l /\ b = numeric_id s' m j /\ ~ numeric_successor n l m j.
(* [last] has the last number of each type.  If numbers count (strict), a heading has the first or the next one, *)
Definition counted (strict : bool) (last : struct_kind -> pystr) (k : struct_kind) (i : pystr) : Prop :=
  strict = true -> i = u8 "1" \/ follows_number (last k) i.
(* and what has another one is not a heading. *)
Definition passed (strict : bool) (last : struct_kind -> pystr) (k : struct_kind) (i : pystr) : Prop :=
  strict = true /\ i <> u8 "1" /\ skips_number (last k) i.
Definition capitals : pystr := u8 "ABCDEFGHIJKLMNOPQRSTUVWXYZÉÁŐÚŰÓÜÖÍ".
Definition capital_start (l : line) : Prop := exists c t, l_content l = c :: t /\ In c capitals.

(* nothing larger than a subtitle starts at the line, and no article *)
Definition no_large (strict : bool) (last : struct_kind -> pystr) (x : option pyfloat) (l : line) : Prop :=
  (near x l -> forall i, ~ article_heading (l_content l) i) /\
  forall k i, k <> KSubtitle -> heading k (l_content l) i -> passed strict last k i.
(* nothing starts at the line *)
Definition calm (strict : bool) (last : struct_kind -> pystr) (x : option pyfloat) (previous l : line) : Prop :=
  no_large strict last x l /\
  (l_bold l = true -> (forall i, heading KSubtitle (l_content l) i -> passed strict last KSubtitle i) /\
                      (capital_start l -> strict = true /\ ~ blank previous)).
(* the element starts at the line.  Subtitles are bold; those without a number stand below a blank line. *)
Definition starts (strict : bool) (last : struct_kind -> pystr) (x : option pyfloat) (previous l : line) (e : structural_element) : Prop :=
  match se_kind e with
  | KSubtitle => l_bold l = true /\ no_large strict last x l /\
      match se_identifier e with
      | [] => capital_start l /\ (strict = true -> blank previous)
      | i => counted strict last KSubtitle i
      end
  | k => counted strict last k (se_identifier e)
  end.

(** * Bodies *)

(* The lines between the start of an element and the next one, if [q] quotes are open before them: nothing starts at
   those that are not in quotes.  The last one of these, or the one before, is [previous']. *)
Inductive calm_lines (strict : bool) (last : struct_kind -> pystr) (x : option pyfloat) : line -> Z -> list line -> line -> Prop :=
| calm_end previous q : calm_lines strict last x previous q [] previous
| calm_quoted previous q l ls previous' : q <> 0 -> calm_lines strict last x previous (q + open_after [l]) ls previous' ->
    calm_lines strict last x previous q (l :: ls) previous'
| calm_line previous q l ls previous' : q = 0 -> calm strict last x previous l -> calm_lines strict last x l (q + open_after [l]) ls previous' ->
    calm_lines strict last x previous q (l :: ls) previous'.
Definition one_line (l : line) : Prop := ~ In 10%N (l_content l).
(* [body_layout pi strict last x previous ls cs]: the lines are a layout of the articles and structural elements *)
Inductive body_layout (pi strict : bool) : (struct_kind -> pystr) -> option pyfloat -> line -> list line -> list act_child -> Prop :=
| layout_nothing last x previous : body_layout pi strict last x previous [] []
| layout_with_article last x previous previous' l ls rest a cs :
    article_layout pi (l :: ls) a -> near x l -> balanced 0 (l :: ls) -> Forall one_line (l :: ls) ->
    calm_lines strict last (Some (l_indent l)) l (open_after [l]) ls previous' ->
    body_layout pi strict last (Some (l_indent l)) previous' rest cs ->
    body_layout pi strict last x previous ((l :: ls) ++ rest) (AArticle a :: cs)
| layout_with_struct last x previous previous' l ls rest e cs :
    struct_in (l :: ls) e -> starts strict last x previous l e -> balanced 0 (l :: ls) -> Forall one_line (l :: ls) ->
    calm_lines strict (next_last last e) x l (open_after [l]) ls previous' ->
    body_layout pi strict (next_last last e) x previous' rest cs ->
    body_layout pi strict last x previous ((l :: ls) ++ rest) (AStruct e :: cs).

(** * Acts *)

Definition no_numbers : struct_kind -> pystr := fun _ => u8 "0".
(* the preamble, in which quotes do not count, and the body, which is not empty *)
Inductive preamble_lines : line -> list line -> line -> Prop :=
| preamble_end previous : preamble_lines previous [] previous
| preamble_line previous l ls previous' : one_line l -> calm true no_numbers None previous l -> preamble_lines l ls previous' ->
    preamble_lines previous (l :: ls) previous'.
Inductive act_layout (a : act) : list line -> Prop :=
| layout_act preamble previous body : preamble_lines EMPTY_LINE preamble previous -> text_in preamble (act_preamble a) ->
    body_layout true true no_numbers None previous body (act_children a) -> act_children a <> [] ->
    act_layout a (preamble ++ body).

(** * Printing *)

(* as line_of, in bold *)
Definition bold_of (x : Z) (s : pystr) : line :=
  mk_line (match s with
           | [] => []
           | c :: t => mk_part (f_of_Z x) [c] true :: map (fun c => mk_part (f_of_Z 5) [c] true) t
           end) (f_of_Z 5).
Definition no_quotes (s : pystr) : Prop := forall c, In c s -> c <> 8220%N /\ c <> 8221%N /\ c <> 8222%N.
(* a text on one line that is not a heading *)
Definition plain_text (t : pystr) : Prop :=
  ~ In 10%N t /\ (forall k i, k <> KSubtitle -> ~ heading k t i) /\ forall i, ~ article_heading t i.
(* the texts of an element and of the elements in it *)
Inductive text_of : sae -> pystr -> Prop :=
| its_text k i t n cs w m : text_of (mk_sae k i (Some t) n cs w m) t
| its_intro k i t n cs w m : text_of (mk_sae k i t (Some n) cs w m) n
| its_wrap_up k i t n cs w m : text_of (mk_sae k i t n cs (Some w) m) w
| text_in_part k i t n cs w m e u : In (ChSae e) cs -> text_of e u -> text_of (mk_sae k i t n (Some cs) w m) u.
Definition plain_element (s : sae) : Prop := forall t, text_of s t -> plain_text t.

(* [printed last cs ls]: the lines are a print of the articles and structural elements.  The title of a large element is on the
   line below its heading, and the title of a subtitle on the same line, in bold.  Articles have a title or a single paragraph. *)
Inductive printed : (struct_kind -> pystr) -> list act_child -> list line -> Prop :=
| printed_end last : printed last [] []
| printed_large last k i t s cs ls : k <> KSubtitle -> heading k s i -> ~ In s special_headings -> ~ In 10%N s -> no_quotes s ->
    counted true last k i -> t <> [] -> plain_text t -> no_quotes t -> printed (next_last last (mk_struct k i t false)) cs ls ->
    printed last (AStruct (mk_struct k i t false) :: cs) (line_of 20 s :: line_of 20 t :: ls)
| printed_special last n s cs ls : nth_error special_headings n = Some s -> counted true last KPart (str_of_int (Z.of_nat n + 1)) ->
    printed (next_last last (mk_struct KPart (str_of_int (Z.of_nat n + 1)) [] true)) cs ls ->
    printed last (AStruct (mk_struct KPart (str_of_int (Z.of_nat n + 1)) [] true) :: cs) (line_of 20 s :: ls)
| printed_subtitle last i t cs ls : subtitle_number i -> counted true last KSubtitle i -> ~ In 10%N t -> no_quotes t ->
    (forall j, ~ article_heading (i ++ u8 ". " ++ t) j) -> printed (next_last last (mk_struct KSubtitle i t false)) cs ls ->
    printed last (AStruct (mk_struct KSubtitle i t false) :: cs) (bold_of 20 (i ++ u8 ". " ++ t) :: ls)
| printed_titled last i title ps cs ls : article_number i -> ~ In 10%N title -> no_quotes title -> clean_paragraphs ps -> Forall plain_element ps ->
    printed last cs ls -> printed last (AArticle (mk_article i (Some title) ps) :: cs) (render_article i title ps ++ ls)
| printed_untitled last i p t rest cs ls : article_number i -> clean KParagraph (u8 "1") p -> s_identifier p = None -> plain_element p ->
    render p = line_of 20 t :: rest -> (forall u, t <> 91%N :: u) -> printed last cs ls ->
    printed last (AArticle (mk_article i None [p]) :: cs) ((line_of 20 (i ++ u8 ". § " ++ t) :: rest) ++ ls).
Definition printed_act (a : act) (lines : list line) : Prop :=
  exists pre body, lines = pre ++ body /\ printed no_numbers (act_children a) body /\ act_children a <> [] /\
    match act_preamble a with [] => pre = [] | t => pre = [line_of 20 t] /\ plain_text t end.
