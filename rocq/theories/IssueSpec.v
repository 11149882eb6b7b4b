(* Independent specification of printed issues: from the characters on their pages to the acts in them (C76). *)
From Verif Require LawSpec FitSpec.
From Verif Require Import PyBase IdModel LineModel DateModel DateSpec TreeModel SemModel FixupModel PegModel PdfModel PdfSpec GazModel GazSpec D2oModel CacheModel ExtModel PipeModel.
Local Open Scope Z_scope.

(** * Pages *)

(* the lines of a page on which the characters are drawn; the boxes that remain of these have a place and an end *)
Definition page_printed (cs : list char) (ls : page) : Prop :=
  let bs := flat_map char_boxes cs in
  Forall good_char cs /\ bs <> [] /\ Forall proper_box bs /\ Forall (fun b => proper (f_add (tb_width b) (tb_x b))) bs /\ consistent bs /\
  exists rs m, page_rows bs rs /\ is_rightmost bs m /\ ls = rows_lines m rs.

(** * Laws in a section *)

(* Lines in which no law starts: a header counts if the line above it is blank, and blank lines are taken in pairs
   if there are several of them. *)
Inductive passed_over : list line -> Prop :=
| passed_end : passed_over []
| passed_line l ls : ~ blank l -> passed_over ls -> passed_over (l :: ls)
| passed_blank e l ls : blank e -> ~ law_header (l_content l) -> passed_over ls -> passed_over (e :: l :: ls).
(* [laws_printed d ls ws]: the lines of a section of the day d have these laws, and there is no other between them *)
Inductive laws_printed (d : date) : list line -> list law_text -> Prop :=
| laws_end ls last : passed_over ls -> last = [] \/ (exists e, last = [e] /\ blank e) -> laws_printed d (ls ++ last) []
| laws_next gap e h ls subject raw body x y z rest ws : passed_over gap -> blank e -> law_header (l_content h) -> subject_written ls subject ->
    text_ends raw body x y z -> laws_printed d rest ws ->
    laws_printed d (gap ++ [e; h] ++ ls ++ raw ++ rest) (mk_law (l_content h) d subject body :: ws).

(** * Issues *)

(* "2011. június 28., kedd" *)
Definition date_written (s : pystr) (d : date) : Prop :=
  supported d /\ exists ys ds rest, numeral ys (d_year d) /\ numeral ds (d_day d) /\ (rest = [] \/ exists t, rest = u8 "," ++ t) /\
    s = ys ++ u8 ". " ++ nth (Z.to_nat (d_month d - 1)) month_names [] ++ u8 " " ++ ds ++ u8 "." ++ rest.
(* The first page has the name of the gazette on its first line and the date on its fourth; what is below the fifth begins
   with the title of a section.  (It is looked at a second time, from its third line on.)  The other pages have two lines
   above the text.  The pages are those of the sections; the laws are in those that are called so. *)
Definition issue_printed (d : date) (pages : list page) (laws : list law_text) : Prop :=
  exists l0 l1 l2 l3 l4 front rest rs lss,
    pages = (l0 :: l1 :: l2 :: l3 :: l4 :: front) :: rest /\
    (exists u w, l_content l0 = u ++ u8 "MAGYAR KÖZLÖNY" ++ w) /\ date_written (l_content l3) d /\
    filter nonempty (front :: (l2 :: l3 :: l4 :: front) :: map (skipn 2) rest) = flat_map rn_pages rs /\
    rs <> [] /\ Forall good_run rs /\ changing rs /\
    Forall2 (laws_printed d) (map run_content (filter (fun r => str_eqb (rn_title r) laws_title) rs)) lss /\ laws = concat lss.

(** * Acts *)

(* the act that a law is, if the lines that the fixups leave of it are a layout of it *)
Definition law_of (fixups : registry) (x : law_text) (c : act) : Prop :=
  exists lines, do_all_fixups fixups (lw_identifier x) (lw_body x) = Ok lines /\ LawSpec.law_written c lines /\ Forall FitSpec.measured lines /\
    act_identifier c = lw_identifier x /\ act_publication_date c = lw_date x /\ act_subject c = lw_subject x.
(* an issue with the acts in it *)
Definition acts_printed (fixups : registry) (css : list (list char)) (acts : list act) : Prop :=
  exists d pages laws, Forall2 page_printed css pages /\ issue_printed d pages laws /\ Forall2 (law_of fixups) laws acts.

(* What the extractors get without a cache: what the net has at the address of the issue, and what pdfminer calls for the
   file.  With a cache they get the same (C51_issue_again). *)
Definition env_of (net : pystr -> res bytes) (miner : bytes -> res (list event)) (fixups : registry) : env :=
  mk_env (fun y i => one (fun b => mk_pdf b (issue_cache_id y i)) (net (get_url y i))) (fun f => one (fun p => p) (parse_pdf miner (pf_bytes f))) fixups grammar_analyzer.
(* the net has the issue of the given year and number, in which the acts are printed *)
Definition served (net : pystr -> res bytes) (miner : bytes -> res (list event)) (fixups : registry) (i : Z * Z) (acts : list act) : Prop :=
  exists b css, net (get_url (fst i) (snd i)) = Ok b /\ miner b = Ok (flat_map page_events css) /\ acts_printed fixups css acts.
