(* Model of hun_law/extractors/magyar_kozlony.py: from the pages of an issue to the texts of its laws. *)
From Verif Require Import PyBase IdModel LineModel DateModel.
Local Open Scope Z_scope.

(* pdf.py:144-157: a page is its lines, a file its pages *)
Definition page := list line.

(* magyar_kozlony.py:27-32; both subscripts can fail *)
Definition is_magyar_kozlony (pages : list page) : res bool :=
  match pages with
  | [] => Err IndexError
  | [] :: _ => Err IndexError
  | (l :: _) :: _ => Ok (contains_sub (u8 "MAGYAR KÖZLÖNY") (l_content l))
  end.

(* magyar_kozlony.py:35-38 *)
Record headed_page := mk_headed { hp_header : list line; hp_lines : list line }.
(* magyar_kozlony.py:41-44 *)
Record issue := mk_issue { is_date : date; is_pages : list headed_page }.

(* magyar_kozlony.py:62, 67: the first n lines are the header *)
Definition cut_header (n : nat) (p : page) : headed_page := mk_headed (firstn n p) (skipn n p).
(* magyar_kozlony.py:47-68.  The first page is there twice: lines 62 and 63-67. *)
Definition header_extractor (pages : list page) : gen issue :=
  match is_magyar_kozlony pages with
  | Err e => mk_gen [] (Some e)
  | Ok false => mk_gen [] None
  | Ok true =>
      match nth_error (hd [] pages) 3 with
      | None => mk_gen [] (Some IndexError)
      | Some l =>
          match from_hungarian_text (l_content l) with
          | Err e => mk_gen [] (Some e)
          | Ok d => mk_gen [mk_issue d (cut_header 5 (hd [] pages) :: map (cut_header 2) pages)] None
          end
      end
  end.

(* magyar_kozlony.py:79-90: the titles, and whether a class is given for the section *)
Definition SECTION_TYPES : list (pystr * bool) :=
  [ (u8 "Tartalomjegyzék", false);
    (u8 "II. Törvények", true);
    (u8 "III. Kormányrendeletek", false);
    (u8 "IV. A Magyar Nemzeti Bank elnökének rendeletei,", false);
    (u8 "V. A Kormány tagjainak rendeletei", false);
    (u8 "VI.Az Alkotmánybíróság határozatai, teljes ülési", false);
    (u8 "VII. A Kúria határozatai", false);
    (u8 "IX. Határozatok Tára", false) ].
Definition section_wanted (t : pystr) : bool :=
  existsb (fun e => str_eqb t (fst e) && snd e) SECTION_TYPES.
Definition is_section_title (s : pystr) : bool := existsb (fun e => str_eqb s (fst e)) SECTION_TYPES.

(* magyar_kozlony.py:71-74 *)
Record laws_section := mk_section { ls_date : date; ls_lines : list line }.

Definition yield_section (d : date) (title : pystr) (content : list line) : list laws_section :=
  if section_wanted title then [mk_section d content] else [].
(* magyar_kozlony.py:98-126; current: the title of the section and its content so far.
   The keys of SECTION_TYPES are different, so at most one of them is the first line. *)
Fixpoint section_loop (d : date) (pages : list headed_page) (current : option (pystr * list line)) : gen laws_section :=
  match pages with
  | [] =>
      match current with
      | None => mk_gen [] (Some AssertionError)
      | Some (t, c) => mk_gen (yield_section d t c) None
      end
  | p :: rest =>
      match hp_lines p with
      | [] => section_loop d rest current
      | first :: others =>
          if is_section_title (l_content first) then
            match current with
            | Some (t, c) =>
                if str_eqb t (l_content first) then section_loop d rest (Some (t, c ++ others ++ [EMPTY_LINE]))
                else
                  let g := section_loop d rest (Some (l_content first, others ++ [EMPTY_LINE])) in
                  mk_gen (yield_section d t c ++ g_items g) (g_end g)
            | None => section_loop d rest (Some (l_content first, others ++ [EMPTY_LINE]))
            end
          else
            match current with
            | None => mk_gen [] (Some ValueError)
            | Some (t, c) => section_loop d rest (Some (t, c ++ (first :: others) ++ [EMPTY_LINE]))
            end
      end
  end.
(* magyar_kozlony.py:94-126 *)
Definition section_extractor (k : issue) : gen laws_section := section_loop (is_date k) (is_pages k) None.

(* magyar_kozlony.py:129-134 *)
Record law_text := mk_law { lw_identifier : pystr; lw_date : date; lw_subject : pystr; lw_body : list line }.

(* magyar_kozlony.py:141: [IVXLC]+ and one more character, then the word; the dots of the pattern
   stand for any character but a newline *)
Definition ascii_digit (c : N) : bool := (48 <=? c)%N && (c <=? 57)%N.
Definition any_chr (c : N) : bool := negb (c =? 10)%N.
Fixpoint match_number_word (seen : bool) (s : pystr) : bool :=
  match s with
  | [] => false
  | c :: t => (seen && any_chr c && startswith (u8 " törvény") t) || (mem_chr c (u8 "IVXLC") && match_number_word true t)
  end.
Definition match_header (s : pystr) : bool :=
  match s with
  | a :: b :: c :: d :: e :: t =>
      mem_chr a (u8 "12") && mem_chr b (u8 "09") && ascii_digit c && ascii_digit d && any_chr e &&
      startswith (u8 " évi ") t && match_number_word false (skipn 5 t)
  | _ => false
  end.
(* magyar_kozlony.py:142 *)
Definition match_footer (s : pystr) : bool :=
  startswith (u8 "köztársasági elnök az Országgyűlés elnöke") s || startswith (u8 "köztársasági elnök az Országgyűlés alelnöke") s.

Inductive law_state := WAITING_FOR_HEADER_NEWLINE | WAITING_FOR_HEADER | HEADER | BODY_BEFORE_ASTERISK_FOOTER | BODY_AFTER_ASTERISK_FOOTER.
(* magyar_kozlony.py:144-150; publication_date does not change *)
Record machine := mk_machine { m_state : law_state; m_identifier : pystr; m_subject : pystr; m_body : list line }.
Definition machine_init : machine := mk_machine WAITING_FOR_HEADER_NEWLINE [] [] [].

(* the three last lines, the last one first *)
Definition last_three (body : list line) : option (line * line * line) :=
  match rev body with z :: y :: x :: _ => Some (x, y, z) | _ => None end.
(* magyar_kozlony.py:201-223 *)
Definition body_after (d : date) (m : machine) (l : line) : machine * option law_text :=
  let body := m_body m ++ [l] in
  let going_on := (mk_machine (m_state m) (m_identifier m) (m_subject m) body, None) in
  if (List.length body <? 4)%nat then going_on
  else match last_three body with
       | Some (x, _, z) =>
           if is_empty_line x && match_footer (l_content z) then
             (machine_init, Some (mk_law (m_identifier m) d (m_subject m) (firstn (List.length body - 3) body)))
           else going_on
       | None => going_on
       end.
(* magyar_kozlony.py:185-193: with the line appended; [None] if the footnote is not there.
   The first character of an empty line is an IndexError. *)
Definition footnote (body : list line) : res (option (list line)) :=
  if (List.length body <? 4)%nat then Ok None
  else match last_three body with
       | Some (x, y, z) =>
           if is_empty_line x && is_empty_line z then
             match l_content y with
             | [] => Err IndexError
             | c :: _ => Ok (if (c =? 42)%N then Some (firstn (List.length body - 3) body ++ [EMPTY_LINE]) else None)
             end
           else Ok None
       | None => Ok None
       end.
(* magyar_kozlony.py:152-223 *)
Definition feed_line (d : date) (m : machine) (l : line) : res (machine * option law_text) :=
  match m_state m with
  | WAITING_FOR_HEADER_NEWLINE =>
      Ok (mk_machine (if is_empty_line l then WAITING_FOR_HEADER else WAITING_FOR_HEADER_NEWLINE) (m_identifier m) (m_subject m) (m_body m), None)
  | WAITING_FOR_HEADER =>
      Ok (if match_header (l_content l) then mk_machine HEADER (l_content l) (m_subject m) (m_body m)
          else mk_machine WAITING_FOR_HEADER_NEWLINE (m_identifier m) (m_subject m) (m_body m), None)
  | HEADER =>
      let subject := match m_subject m with [] => l_content l | s => s ++ u8 " " ++ l_content l end in
      last <- last_chr subject ;;
      Ok (if (last =? 42)%N then mk_machine BODY_BEFORE_ASTERISK_FOOTER (m_identifier m) (drop_last subject) (m_body m)
          else mk_machine HEADER (m_identifier m) subject (m_body m), None)
  | BODY_BEFORE_ASTERISK_FOOTER =>
      f <- footnote (m_body m ++ [l]) ;;
      match f with
      | Some body => Ok (mk_machine BODY_AFTER_ASTERISK_FOOTER (m_identifier m) (m_subject m) body, None)
      | None => Ok (body_after d m l)
      end
  | BODY_AFTER_ASTERISK_FOOTER => Ok (body_after d m l)
  end.
Fixpoint law_loop (d : date) (m : machine) (lines : list line) : gen law_text :=
  match lines with
  | [] => mk_gen [] None
  | l :: rest =>
      match feed_line d m l with
      | Err e => mk_gen [] (Some e)
      | Ok (m', r) =>
          let g := law_loop d m' rest in
          mk_gen (match r with Some t => [t] | None => [] end ++ g_items g) (g_end g)
      end
  end.
(* magyar_kozlony.py:226-232 *)
Definition law_extractor (s : laws_section) : gen law_text := law_loop (ls_date s) machine_init (ls_lines s).
