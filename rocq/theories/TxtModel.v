(* Model of hun_law/output/txt.py and utils.indented_line_wrapped_print, with textwrap.wrap. *)
From Verif Require Import PyBase IdModel LineModel DateModel RefModel TreeModel StructModel GazModel HtmlModel.
Local Open Scope Z_scope.

(** * textwrap *)

(* What is not modelled of textwrap.TextWrapper: how wordsep_re splits a text, and whether long words
   are broken after hyphens (from Python 3.10 on). *)
Record wrapper := mk_wrapper { w_split : pystr -> list pystr; w_hyphens : bool }.
(* str.expandtabs(8) *)
Fixpoint expandtabs (column : nat) (s : pystr) : pystr :=
  match s with
  | [] => []
  | c :: t =>
      if (c =? 9)%N then repeat 32%N (8 - column mod 8) ++ expandtabs 0 t
      else if (c =? 10)%N || (c =? 13)%N then c :: expandtabs 0 t
      else c :: expandtabs (S column) t
  end.
(* TextWrapper._munge_whitespace *)
Definition munge (s : pystr) : pystr :=
  map (fun c => if mem_chr c [9%N; 10%N; 11%N; 12%N; 13%N; 32%N] then 32%N else c) (expandtabs 0 s).
(* TextWrapper._split_chunks, _split *)
Definition split_chunks (w : wrapper) (s : pystr) : list pystr :=
  List.filter (fun c => negb (str_eqb c [])) (w_split w (munge s)).
(* the chunks that fit on the line, and the rest *)
Fixpoint take_chunks (room : nat) (chunks : list pystr) : list pystr * list pystr :=
  match chunks with
  | [] => ([], [])
  | c :: t => if (List.length c <=? room)%nat then let '(a, b) := take_chunks (room - List.length c) t in (c :: a, b) else ([], chunks)
  end.
(* str.rfind('-', 0, end) of a longer string; 0 for not found too, which is the same below *)
Fixpoint rfind_hyphen (i stop : nat) (found : nat) (s : pystr) : nat :=
  match s with
  | [] => found
  | c :: t => if (stop <=? i)%nat then found else rfind_hyphen (S i) stop (if (c =? 45)%N then i else found) t
  end.
(* TextWrapper._handle_long_word: where the word is broken *)
Definition break_at (hyphens : bool) (chunk : pystr) (space_left : nat) : nat :=
  if hyphens && (space_left <? List.length chunk)%nat then
    let hyphen := rfind_hyphen 0 space_left 0 chunk in
    if (0 <? hyphen)%nat && existsb (fun c => negb (c =? 45)%N) (firstn hyphen chunk) then S hyphen else space_left
  else space_left.
(* without its last item if that is white space *)
Fixpoint drop_blank_last (l : list pystr) : list pystr :=
  match l with [] => [] | [c] => if blank c then [] else [c] | c :: t => c :: drop_blank_last t end.
(* TextWrapper._wrap_chunks, from the width check on; [started]: there are lines already.  The loop
   ends: TxtProofs.wrap_ends. *)
Fixpoint wrap_chunks (fuel : nat) (hyphens : bool) (width : nat) (started : bool) (chunks : list pystr) : res (list pystr) :=
  match fuel with
  | O => Err OutOfFuel
  | S fuel =>
      match chunks with
      | [] => Ok []
      | first :: others =>
          let chunks := if started && blank first then others else chunks in
          let '(cur_line, chunks) := take_chunks width chunks in
          let '(cur_line, chunks) :=
            match chunks with
            | c :: t =>
                if (width <? List.length c)%nat then
                  let stop := break_at hyphens c (width - List.length (concat cur_line)) in
                  (cur_line ++ [firstn stop c], skipn stop c :: t)
                else (cur_line, chunks)
            | [] => (cur_line, [])
            end in
          match drop_blank_last cur_line with
          | [] => wrap_chunks fuel hyphens width started chunks
          | cur_line => lines <- wrap_chunks fuel hyphens width true chunks ;; Ok (concat cur_line :: lines)
          end
      end
  end.
Definition wrap_fuel (chunks : list pystr) : nat := S (List.length (concat chunks) + List.length chunks).
(* textwrap.wrap *)
Definition wrap (w : wrapper) (s : pystr) (width : Z) : res (list pystr) :=
  let chunks := split_chunks w s in
  if width <=? 0 then Err ValueError else wrap_chunks (wrap_fuel chunks) (w_hyphens w) (Z.to_nat width) false chunks.

(** * Printing *)

(* What is printed: to the file (or else to the standard output), without the final new line. *)
Definition output := list (bool * pystr).
Definition to_file (s : pystr) : output := [(true, s)].
Definition spaces (n : nat) : pystr := repeat 32%N n.
(* " " * len(indent) *)
Definition blanks (indent : pystr) : pystr := spaces (List.length indent).
Fixpoint print_lines (indent : pystr) (ls : list pystr) : output :=
  match ls with [] => [] | l :: t => (true, indent ++ l) :: print_lines (blanks indent) t end.
(* utils.py:350-359, always called with a file; with width 0 the file is not used *)
Definition wrapped_print (w : wrapper) (s indent : pystr) (width : Z) : res output :=
  if width =? 0 then Ok [(false, indent ++ s)]
  else lines <- wrap w s (width - Z.of_nat (List.length indent)) ;; Ok (print_lines indent lines).

(** * Writers *)

(* "{:<n}".format(s) *)
Definition pad (n : nat) (s : pystr) : pystr := s ++ spaces (n - List.length s).
Definition f_fifth : pyfloat := f_dyadic 3602879701896397 (-54).
(* ' ' * int((l.indent - base) * 0.2) *)
Definition rel_indent (base : pyfloat) (l : line) : res pystr :=
  n <- f_int (f_mul (f_sub (l_indent l) base) f_fifth) ;; Ok (spaces (Z.to_nat n)).
(* an optional string that is not empty is printed in some way *)
Definition when_print (s : option pystr) (f : pystr -> res output) : res output :=
  match opt_true s with None => Ok [] | Some s => f s end.

(* txt.py:34-41 and 44-49 *)
Definition txt_struct (w : wrapper) (width : Z) (indent : pystr) (e : structural_element) : res output :=
  f <- formatted_identifier e ;;
  match se_kind e with
  | KSubtitle =>
      let id_to_print := match f with [] => [] | _ => f ++ u8 " " end ++ se_title e in
      wrapped_print w (str_strip id_to_print) indent width
  | _ =>
      a <- wrapped_print w f indent width ;;
      b <- match se_title e with [] => Ok [] | t => wrapped_print w t (blanks indent) width end ;;
      Ok (a ++ b)
  end.
(* txt.py:85-93 *)
Definition quoted_rows (base : pyfloat) (indent : pystr) (ls : list line) : res output :=
  mapM (fun l => i <- rel_indent base l ;; Ok (true, indent ++ spaces 5 ++ i ++ l_content l)) ls.
Definition txt_quoted (indent : pystr) (ls : list line) : res output :=
  base <- f_min (map l_indent (List.filter not_empty_line ls)) ;;
  rows <- quoted_rows base (blanks indent) ls ;;
  Ok (to_file (indent ++ u8 "„") ++ rows ++ to_file (blanks indent ++ u8 "”")).

(* txt.py:65-82 and 52-62 (txt_sae), 96-105 (txt_article); txt_child is write_txt (129-136) for what
   can be a child *)
Fixpoint txt_sae (w : wrapper) (width : Z) (indent : pystr) (s : sae) : res output :=
  match s with
  | mk_sae kind identifier text intro children wrap_up meta =>
      match kind with
      | KBlockAmendmentContainer =>
          first <- when_print intro (fun t => wrapped_print w (u8 "(" ++ t ++ u8 ")") indent width) ;;
          cs <- match children with
                | None => Err AssertionError
                | Some cs =>
                    (fix go (cs : list child) : res output :=
                       match cs with [] => Ok [] | c :: t => a <- txt_child w width (indent ++ spaces 5) c ;; b <- go t ;; Ok (a ++ b) end) cs
                end ;;
          last <- when_print wrap_up (fun t => wrapped_print w (u8 "(" ++ t ++ u8 ")") indent width) ;;
          Ok (first ++ to_file (indent ++ u8 "„") ++ cs ++ to_file (indent ++ u8 "”") ++ last)
      | _ =>
          header <- match opt_true identifier with
                    | Some i => p <- header_prefix kind (Some i) ;; Ok (pad 5 p)
                    | None => Ok (spaces 5)
                    end ;;
          let indent := indent ++ header in
          match opt_true text with
          | Some t => wrapped_print w t indent width
          | None =>
              first <- when_print intro (fun t => wrapped_print w t indent width) ;;
              let indent := match opt_true intro with Some _ => blanks indent | None => indent end in
              match children with
              | None => Err AssertionError
              | Some cs =>
                  rest <- (fix go (indent : pystr) (cs : list child) : res output :=
                             match cs with [] => Ok [] | c :: t => a <- txt_child w width indent c ;; b <- go (blanks indent) t ;; Ok (a ++ b) end) indent cs ;;
                  last <- when_print wrap_up (fun t => wrapped_print w t (match cs with [] => indent | _ => blanks indent end) width) ;;
                  Ok (first ++ rest ++ last)
              end
          end
      end
  end
with txt_child (w : wrapper) (width : Z) (indent : pystr) (c : child) : res output :=
  match c with
  | ChSae s => txt_sae w width indent s
  | ChArticle a => txt_article w width indent a
  | ChQuoted ls => txt_quoted indent ls
  | ChStruct e => txt_struct w width indent e
  end
with txt_article (w : wrapper) (width : Z) (indent : pystr) (a : article) : res output :=
  match a with
  | mk_article identifier title paragraphs =>
      let indent := indent ++ pad 10 (identifier ++ u8 ". §") in
      first <- when_print title (fun t => wrapped_print w (spaces 5 ++ u8 "[" ++ t ++ u8 "]") indent width) ;;
      let indent := match opt_true title with Some _ => blanks indent | None => indent end in
      rest <- (fix go (indent : pystr) (ps : list sae) : res output :=
                 match ps with [] => Ok [] | p :: t => a <- txt_sae w width indent p ;; b <- go (blanks indent) t ;; Ok (a ++ b) end) indent paragraphs ;;
      Ok (first ++ rest)
  end.

(* "==== {} - {} =====\n".format(identifier, subject) *)
Definition heading (identifier subject : pystr) : pystr := u8 "==== " ++ identifier ++ u8 " - " ++ subject ++ u8 " =====" ++ [10%N].
(* txt.py:108-115 *)
Definition txt_act (w : wrapper) (width : Z) (indent : pystr) (a : act) : res output :=
  preamble <- wrapped_print w (act_preamble a) [] width ;;
  rest <- (fix go (indent : pystr) (cs : list act_child) : res output :=
             match cs with
             | [] => Ok []
             | c :: t =>
                 x <- match c with AStruct e => txt_struct w width indent e | AArticle x => txt_article w width indent x end ;;
                 y <- go (blanks indent) t ;;
                 Ok (x ++ to_file [] ++ y)
             end) indent (act_children a) ;;
  Ok (to_file (heading (act_identifier a) (act_subject a)) ++ preamble ++ rest).
(* txt.py:118-126 *)
Definition raw_rows (base : pyfloat) (indent : pystr) (ls : list line) : res output :=
  mapM (fun l => i <- rel_indent base l ;; Ok (true, indent ++ i ++ (if l_bold l then u8 "<BOLD> " else spaces 7) ++ l_content l)) ls.
Definition txt_raw (indent : pystr) (x : law_text) : res output :=
  base <- f_min (map l_indent (List.filter not_empty_line (lw_body x))) ;;
  rows <- raw_rows base indent (lw_body x) ;;
  Ok (to_file (heading (lw_identifier x) (lw_subject x)) ++ rows ++ to_file []).

(* what is in the file, and on the standard output *)
Definition printed (file : bool) (o : output) : pystr :=
  flat_map (fun p => if Bool.eqb (fst p) file then snd p ++ [10%N] else []) o.
