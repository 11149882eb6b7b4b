(* Independent specification of how amendments and repeals of chapters and other divisions of an act are written. *)
From Verif Require Import PyBase NumModel NumSpec IdModel RefModel RefSpec TreeModel SemModel GramModel GramSpec PegSpec PegSpec2 PegSpec3.
Local Open Scope Z_scope.

(** * Divisions *)

(* /A, or A if it cannot be part of the numeral *)
Definition letter_after (numeral : pystr) (p : pystr) : Prop :=
  p = [] \/ exists c, (65 <= c <= 90)%N /\ (p = [47%N; c] \/ (p = [c] /\ ~ In c numeral)).
(* IV, IV/A, and the identifier *)
Inductive numeral_written : pystr -> pystr -> Prop :=
| nw_roman n p : 1 <= n -> letter_after NumSpec.roman_letters p -> numeral_written (roman n ++ p) (str_of_int n ++ p).
(* the ordinals that the grammar knows; the n-th is from 0 *)
Definition ordinals : list pystr :=
  [u8 "Első"; u8 "Második"; u8 "Harmadik"; u8 "Negyedik"; u8 "Ötödik"; u8 "Hatodik"; u8 "Hetedik"; u8 "Nyolcadik"; u8 "Kilencedik"; u8 "Tizedik";
   u8 "Tizenegyedik"; u8 "Tizenkettedik"; u8 "Tizenharmadik"; u8 "Tizennegyedik"; u8 "Tizenötödik"; u8 "Tizenhatodik"; u8 "Tizenhetedik"; u8 "Tizennyolcadik"; u8 "Tizenkilencedik"].
Definition ordinal_written (w i : pystr) : Prop := exists n, nth_error ordinals n = Some w /\ i = str_of_int (Z.of_nat n + 1).
(* Első Könyv, if there are books *)
Inductive book_written : pystr -> option pystr -> Prop :=
| bk_none : book_written [] None
| bk_some w i : ordinal_written w i -> book_written (w ++ u8 " Könyv ") (Some i).
(* 5/A. alcíme, IV. Fejezete, Második Könyv II. Címe, Harmadik Része, and what it is *)
Inductive division_written (a : pystr) : pystr -> structural_reference -> Prop :=
| dv_subtitle n p e : digits n -> letter_after [] p -> ending e -> division_written a ((n ++ p) ++ u8 ". alcím" ++ e) (mk_sref (Some a) None None None None (Some (n ++ p)) None)
| dv_chapter w i e : numeral_written w i -> ending e -> division_written a (w ++ u8 ". Fejezet" ++ e) (mk_sref (Some a) None None None (Some i) None None)
| dv_part v b w i e : book_written v b -> ordinal_written w i -> ending e -> division_written a (v ++ w ++ u8 " Rész" ++ e) (mk_sref (Some a) b (Some i) None None None None)
| dv_title v b w i e : book_written v b -> numeral_written w i -> ending e -> division_written a (v ++ w ++ u8 ". Cím" ++ e) (mk_sref (Some a) b None (Some i) None None None).
(* nothing is said of articles and what is in them, and no subtitle is named by its title *)
Definition unmixed (w : pystr) : Prop := Forall (fun x => ~ has w x) [u8 "§"; u8 "bekezdés"; u8 "pont"].
Definition untitled (w : pystr) : Prop := ~ has w (u8 "alcíme").

(** * Sentences *)

Definition division_ending (f : pystr) : Prop :=
  amendment_ending f \/ In f [u8 " helyébe a következő cím lép"; u8 " helyébe a következő fejezet lép"; u8 " helyébe a következő rész lép"; u8 " helyébe a következő lép"].
(* the act itself is not among the references of an amendment *)
Inductive divided : pystr -> list outgoing_reference -> semantic_data -> list act_id_abbreviation -> Prop :=
| di_amended z u a x y m w r f : article_word z -> title_words u -> act_written a x y m -> division_written a w r -> unmixed w -> (sr_subtitle r = None -> untitled w) -> division_ending f ->
    divided (z ++ u ++ x ++ y ++ u8 " " ++ w ++ f ++ u8 ":") [] (BlockAmendment (ASRef r) false) m
| di_inserted z u a x y m w r f : article_word z -> title_words u -> act_written a x y m -> division_written a w r -> unmixed w -> untitled w -> insertion_ending f ->
    divided (z ++ u ++ x ++ y ++ u8 " a következő " ++ w ++ f ++ u8 ":") [] (BlockAmendment (ASRef r) true) m
| di_titled z u a x y m b j w i e f : article_word z -> title_words u -> act_written a x y m -> ordinal_written b j -> numeral_written w i -> ending e -> unmixed (w ++ u8 ". Cím" ++ e) -> untitled (w ++ u8 ". Cím" ++ e) -> insertion_ending f ->
    divided (z ++ u ++ x ++ y ++ u8 " " ++ b ++ u8 " Könyve a következő " ++ w ++ u8 ". Cím" ++ e ++ f ++ u8 ":") [] (BlockAmendment (ASRef (mk_sref (Some a) (Some j) None (Some i) None None None)) true) m
| di_repealed h z u a x y m w r k : In h [u8 "Nem lép hatályba"; u8 "Hatályát veszti"] -> quote_article z -> words u -> spaced u -> act_written a x y m -> k = size h + size z + size u ->
    division_written a w r -> unmixed w -> (sr_subtitle r = None -> untitled w) ->
    divided (h ++ z ++ u ++ x ++ y ++ u8 " " ++ w ++ u8 ".") [mk_outgoing k (k + size x) (act_only a)] (Repeal (ASRef r) None) m.
