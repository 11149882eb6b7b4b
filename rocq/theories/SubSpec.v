(* Independent specification of how subtitles are inserted, replaced and repealed. *)
From Verif Require Import PyBase NumModel NumSpec IdModel RefModel RefSpec TreeModel SemModel GramModel GramSpec PegSpec PegSpec2 PegSpec3 DivSpec.
Local Open Scope Z_scope.

(** * Places of subtitles *)

Definition of_act (a : pystr) : structural_reference := mk_sref (Some a) None None None None None None.
Definition at_article (a : pystr) (t : combo_position) (i : pystr) : structural_reference := mk_sref (Some a) None None None None None (Some (mk_combo t i)).
(* IV. Fejezete, or nothing *)
Definition chapter_before (c : pystr) : Prop := c = [] \/ exists w i e, numeral_written w i /\ ending e /\ c = w ++ u8 ". Fejezet" ++ e ++ u8 " ".
(* a 300. §-t megelőzően, IX. Fejezete a 92/A. §-t követően: the chapter does not matter *)
Inductive place_written (a : pystr) : pystr -> structural_reference -> Prop :=
| pl_written c z i e v t : chapter_before c -> In z [[]; u8 "a "; u8 "az "] -> article_shape i -> sign_ending e ->
    In (v, t) [(u8 "megelőzően", BEFORE_WITHOUT_ARTICLE); (u8 "megelőző", BEFORE_WITHOUT_ARTICLE); (u8 "követően", AFTER); (u8 "követő", AFTER)] ->
    place_written a (c ++ z ++ i ++ u8 ". §" ++ e ++ u8 " " ++ v) (at_article a t i).
(* where a subtitle is inserted, if this is said *)
Inductive position_written (a : pystr) : pystr -> structural_reference -> Prop :=
| po_none : position_written a [] (of_act a)
| po_place w r : place_written a w r -> position_written a (u8 " " ++ w) r
| po_chapter w i e : numeral_written w i -> ending e -> untitled (w ++ u8 ". Fejezet" ++ e) ->
    position_written a (u8 " " ++ w ++ u8 ". Fejezet" ++ e) (mk_sref (Some a) None None None (Some i) None None).

(** * Sentences *)

(* the first article *)
Definition first_of (p : rpart) (i : pystr) : Prop := p = RId i \/ exists j, p = RRange i j.
Definition subtitle_ending (f : pystr) : Prop :=
  amendment_ending f \/ In f [u8 " helyébe a következő alcím lép"; u8 " helyébe a következő alcím és rendelkezés lép"; u8 " helyébe a következő rendelkezés és alcím lép"; u8 " helyébe a következő alcím lépnek"].
Definition subtitle_word (w : pystr) : Prop := In w [u8 " alcím"; u8 " alcíme"; u8 " alcím címe"; u8 " alcím-megjelölés"; u8 " alcím-megjelölése"].
Definition of_subtitle (a q : pystr) : structural_reference := mk_sref (Some a) None None None None (Some (str_strip q)) None.
Definition titled_word (w : pystr) : Prop := In w [u8 " alcíme"; u8 " című alcíme"].
(* and the one before it *)
Definition preceding_word (v : pystr) : Prop := In v [u8 " és az azt megelőző"; u8 " és az azokat megelőző"; u8 " és a megelőző"].
Inductive subtitled : pystr -> list outgoing_reference -> semantic_data -> list act_id_abbreviation -> Prop :=
(* a 300. §-t megelőzően a következő alcímmel egészül ki *)
| su_inserted z u a x y m w r f : article_word z -> title_words u -> act_written a x y m -> position_written a w r -> insertion_ending f ->
    subtitled (z ++ u ++ x ++ y ++ w ++ u8 " a következő alcímmel" ++ f ++ u8 ":") [] (BlockAmendment (ASRef r) true) m
(* XX. Fejezete a következő alcímmel és 212/A. §-sal egészül ki: this is before the article, which is inserted with it *)
| su_together z u a x y m w r p i n f : article_word z -> title_words u -> act_written a x y m -> position_written a w r -> part_written PArticle p n -> first_of p i -> untitled n -> insertion_ending f ->
    subtitled (z ++ u ++ x ++ y ++ w ++ u8 " a következő alcímmel és " ++ n ++ f ++ u8 ":") [] (BlockAmendment (ASRef (at_article a BEFORE_WITH_ARTICLE i)) true) m
(* a 83. §-t megelőző alcím helyébe a következő alcím lép *)
| su_replaced z u a x y m w r t f : article_word z -> title_words u -> act_written a x y m -> place_written a w r -> subtitle_word t -> subtitle_ending f ->
    subtitled (z ++ u ++ x ++ y ++ u8 " " ++ w ++ t ++ f ++ u8 ":") [] (BlockAmendment (ASRef r) false) m
(* a következő 226/A. §-sal és az azt megelőző alcímmel egészül ki *)
| su_article_inserted z u a x y m w r p i n v f : article_word z -> title_words u -> act_written a x y m -> position_written a w r -> part_written PArticle p n -> first_of p i -> untitled n -> preceding_word v -> insertion_ending f ->
    subtitled (z ++ u ++ x ++ y ++ w ++ u8 " a következő " ++ n ++ v ++ u8 " alcímmel" ++ f ++ u8 ":") [] (BlockAmendment (ASRef (at_article a BEFORE_WITH_ARTICLE i)) true) m
(* 349. §-a és az azt megelőző alcím helyébe a következő rendelkezés lép *)
| su_article_replaced z u a x y m p i n v t f : article_word z -> title_words u -> act_written a x y m -> part_written PArticle p n -> first_of p i -> untitled n -> preceding_word v -> subtitle_word t -> untitled t -> subtitle_ending f ->
    subtitled (z ++ u ++ x ++ y ++ u8 " " ++ n ++ v ++ t ++ f ++ u8 ":") [] (BlockAmendment (ASRef (at_article a BEFORE_WITH_ARTICLE i)) false) m
(* Hatályát veszti a Btk. 297. §-t megelőző alcíme. *)
| su_repealed h z u a x y m w r t k : In h [u8 "Nem lép hatályba"; u8 "Hatályát veszti"] -> quote_article z -> words u -> spaced u -> act_written a x y m -> k = size h + size z + size u -> place_written a w r -> subtitle_word t ->
    subtitled (h ++ z ++ u ++ x ++ y ++ u8 " " ++ w ++ t ++ u8 ".") [mk_outgoing k (k + size x) (act_only a)] (Repeal (ASRef r) None) m
(* „A vételi jog” című alcíme helyébe a következő rendelkezés lép *)
| su_titled z u a x y m q t f : article_word z -> title_words u -> act_written a x y m -> plain_quote q -> titled_word t -> division_ending f ->
    subtitled (z ++ u ++ x ++ y ++ u8 " " ++ quoted q ++ t ++ f ++ u8 ":") [] (BlockAmendment (ASRef (of_subtitle a q)) false) m
(* Hatályát veszti a Ptk. „A vételi jog” alcíme. *)
| su_title_repealed h z u a x y m q t k : In h [u8 "Nem lép hatályba"; u8 "Hatályát veszti"] -> quote_article z -> words u -> spaced u -> act_written a x y m -> k = size h + size z + size u -> plain_quote q -> titled_word t ->
    subtitled (h ++ z ++ u ++ x ++ y ++ u8 " " ++ quoted q ++ t ++ u8 ".") [mk_outgoing k (k + size x) (act_only a)] (Repeal (ASRef (of_subtitle a q)) None) m.
