(* What amendments, repeals and abbreviations name (C58), independently of GramModel's functions. *)
From Verif Require Import PyBase NumModel IdModel NumSpec RefModel StructModel StructSpec TreeModel SemModel GramModel GramSpec.
Local Open Scope Z_scope.

(* the act that a clause is about *)
Inductive act_named : g_act_ref -> pystr -> Prop :=
| an_number y n sp ab now : act_named (mk_gactref (Some (y, n, sp)) ab now) (y ++ u8 ". évi " ++ n ++ u8 ". törvény")
| an_abbreviation s sp now : act_named (mk_gactref None (Some (s, sp)) now) s.

(* roman numerals with a postfix: "XIII/A" is 13/A *)
Definition roman_written (s i : pystr) : Prop :=
  exists n p, 1 <= n /\ roman_postfix p /\ s = roman n ++ p /\ i = str_of_int n ++ p.
Definition book_written (b i : option pystr) : Prop :=
  match b, i with
  | None, None => True
  | Some t, Some i => exists n, ordinal_of n t /\ i = str_of_int n
  | _, _ => False
  end.

(* The place that a structural clause names: the fields of the reference are those that are
   mentioned here, all others are empty. *)
Record place := mk_place { pl_book : option pystr; pl_part : option pystr; pl_title : option pystr;
                           pl_chapter : option pystr; pl_subtitle : option pystr; pl_article : option (combo_position * pystr) }.
Definition nowhere : place := mk_place None None None None None None.
Inductive place_named : g_structural -> place -> Prop :=
| pn_words ws q : place_named (GSubtitleTitle (Some ws) q) (mk_place None None None None (Some (join_str (u8 " ") ws)) None)
| pn_quote q t : quote_says q t -> place_named (GSubtitleTitle None (Some q)) (mk_place None None None None (Some t) None)
| pn_before id : place_named (GBeforeArticle id) (mk_place None None None None None (Some (BEFORE_WITHOUT_ARTICLE, concat id)))
| pn_after id : place_named (GAfterArticle id) (mk_place None None None None None (Some (AFTER, concat id)))
| pn_subtitle id : place_named (GSubtitleNumber id) (mk_place None None None None (Some (concat id)) None)
| pn_chapter id i : roman_written (concat id) i -> place_named (GChapterNumber id) (mk_place None None None (Some i) None None)
| pn_title b j id i : book_written b j -> roman_written (concat id) i -> place_named (GTitleNumber b id) (mk_place j None (Some i) None None None)
| pn_part b j t n : book_written b j -> ordinal_of n t -> place_named (GPartNumber b t) (mk_place j (Some (str_of_int n)) None None None None).

Definition place_in (act : pystr) (p : place) (r : structural_reference) : Prop :=
  sr_act r = Some act /\ sr_book r = pl_book p /\ sr_part r = pl_part p /\ sr_title r = pl_title p /\
  sr_chapter r = pl_chapter p /\ sr_subtitle r = pl_subtitle p /\
  option_map (fun c => (combo_pos c, combo_article c)) (sr_special r) = pl_article p.

(* the one element that a reference names, if it names exactly one (a range is one) *)
Definition names_one (act : pystr) (g : option g_reference) (r : option reference) : Prop :=
  match g with
  | None => r = None
  | Some g => exists l, convert_single_in_text_reference (Some act) g = Ok l /\
      match r with
      | Some r => exists o, l = [o] /\ or_reference o = r
      | None => List.length l <> 1%nat
      end
  end.
