(* What the sections and laws of an issue are (C45, C46), independently of GazModel's loops. *)
From Verif Require Import PyBase IdModel LineModel DateModel GazModel.
Local Open Scope Z_scope.

Definition blank (l : line) : Prop := l_parts l = [].

(** * Sections *)

(* the titles that start a section *)
Definition titles : list pystr :=
  [u8 "Tartalomjegyzék"; u8 "II. Törvények"; u8 "III. Kormányrendeletek"; u8 "IV. A Magyar Nemzeti Bank elnökének rendeletei,";
   u8 "V. A Kormány tagjainak rendeletei"; u8 "VI.Az Alkotmánybíróság határozatai, teljes ülési"; u8 "VII. A Kúria határozatai"; u8 "IX. Határozatok Tára"].
Definition laws_title : pystr := u8 "II. Törvények".

(* A run of pages of one section: the first page has the title on top; later ones have it again or
   begin with no title at all. *)
Definition titled (t : pystr) (p : list line) : Prop := exists l r, p = l :: r /\ l_content l = t.
Definition untitled (p : list line) : Prop := exists l r, p = l :: r /\ ~ In (l_content l) titles.
Record run := mk_run { rn_title : pystr; rn_pages : list (list line) }.
Definition good_run (r : run) : Prop :=
  In (rn_title r) titles /\
  exists p ps, rn_pages r = p :: ps /\ titled (rn_title r) p /\ Forall (fun p => titled (rn_title r) p \/ untitled p) ps.
(* neighbours have different titles *)
Fixpoint changing (rs : list run) : Prop :=
  match rs with
  | a :: (b :: _) as t => rn_title a <> rn_title b /\ changing t
  | _ => True
  end.
(* the lines of a run: the pages without the title, each followed by a blank line *)
Definition page_content (t : pystr) (p : list line) : list line :=
  match p with
  | l :: r => (if str_eqb (l_content l) t then r else p) ++ [EMPTY_LINE]
  | [] => []
  end.
Definition run_content (r : run) : list line := flat_map (page_content (rn_title r)) (rn_pages r).
Definition laws_of_runs (d : date) (rs : list run) : list laws_section :=
  map (fun r => mk_section d (run_content r)) (filter (fun r => str_eqb (rn_title r) laws_title) rs).

Definition nonempty {A} (l : list A) : bool := match l with [] => false | _ => true end.
Definition written_pages (k : issue) : list (list line) := filter nonempty (map hp_lines (is_pages k)).

(** * Laws *)

(* "2011. évi CLX. törvény", with any character in place of the dots *)
Definition law_header (s : pystr) : Prop :=
  exists a b c d dot number dot' rest,
    s = [a; b; c; d; dot] ++ u8 " évi " ++ number ++ [dot'] ++ u8 " törvény" ++ rest /\
    In a (u8 "12") /\ In b (u8 "09") /\ In c (u8 "0123456789") /\ In d (u8 "0123456789") /\ dot <> 10%N /\ dot' <> 10%N /\
    number <> [] /\ Forall (fun x => In x (u8 "IVXLC")) number.
Definition signature (s : pystr) : Prop :=
  exists rest, s = u8 "köztársasági elnök az Országgyűlés elnöke" ++ rest \/ s = u8 "köztársasági elnök az Országgyűlés alelnöke" ++ rest.

Definition starred (s : pystr) : Prop := exists t, s = t ++ u8 "*".
(* the lines of the subject: only the last one ends in an asterisk, the first one is not empty *)
Definition subject_written (ls : list line) (subject : pystr) : Prop :=
  exists ms l, ls = ms ++ [l] /\ Forall (fun m => ~ starred (l_content m)) ms /\
    match ls with [] => False | f :: _ => l_content f <> [] end /\
    join_str (u8 " ") (map l_content ls) = subject ++ u8 "*".
(* a footnote in the text: a line that begins with an asterisk, between blank lines; a blank line is left of it *)
Inductive footnote_cut : list line -> list line -> Prop :=
| fc_none ls : footnote_cut ls ls
| fc_cut before x y z after t : before <> [] -> blank x -> l_content y = u8 "*" ++ t -> blank z ->
    footnote_cut (before ++ [x; y; z] ++ after) (before ++ EMPTY_LINE :: after).

(* [law_written ls w]: ls are the lines of the law w: a blank line, the header, the subject, and
   the text up to a blank line and two lines of signatures *)
Definition law_written (d : date) (ls : list line) (w : law_text) : Prop :=
  exists e h subject raw x y z,
    ls = [e; h] ++ subject ++ raw /\
    blank e /\ law_header (l_content h) /\ lw_identifier w = l_content h /\ lw_date w = d /\
    subject_written subject (lw_subject w) /\
    footnote_cut raw (lw_body w ++ [x; y; z]) /\ lw_body w <> [] /\ blank x /\ signature (l_content z).
(* [laws_among ls ws]: the laws ws are in ls, one after the other, apart from each other *)
Inductive laws_among (d : date) : list line -> list law_text -> Prop :=
| la_end ls : laws_among d ls []
| la_law gap ls w rest ws : law_written d ls w -> laws_among d rest ws -> laws_among d (gap ++ ls ++ rest) (w :: ws).

(* no blank line and two lines below a signature, where it could end a law *)
Definition unsigned (ls : list line) : Prop :=
  forall a x y z b, ls = a ++ [x; y; z] ++ b -> a <> [] -> blank x -> ~ signature (l_content z).
Definition no_footnote (ls : list line) : Prop :=
  forall a x y z b, ls = a ++ [x; y; z] ++ b -> a <> [] -> blank x -> blank z -> exists c t, l_content y = c :: t /\ c <> 42%N.
(* [text_ends raw body x y z]: raw is a text that first ends, with its footnote cut, as body and the lines x, y, z *)
Definition text_ends (raw body : list line) (x y z : line) : Prop :=
  body <> [] /\ blank x /\ signature (l_content z) /\ unsigned (body ++ [x; y]) /\
  (raw = body ++ [x; y; z] /\ no_footnote (body ++ [x; y]) \/
   exists before fx fy fz after t, raw = before ++ [fx; fy; fz] ++ after ++ [z] /\ before ++ EMPTY_LINE :: after = body ++ [x; y] /\
     before <> [] /\ blank fx /\ l_content fy = u8 "*" ++ t /\ blank fz /\ no_footnote (before ++ [fx; fy]) /\ unsigned (before ++ [fx; fy])).
(* [in_order a b]: a is b with some lines left out *)
Inductive in_order {A} : list A -> list A -> Prop :=
| io_nil : in_order [] []
| io_keep x a b : in_order a b -> in_order (x :: a) (x :: b)
| io_drop x a b : in_order a b -> in_order a (x :: b).
