(* Model of fixup_editor.py, and of how hun_law/fixups/text_fixups.py registers the replacements. *)
From Verif Require Import PyBase IdModel LineModel FixupModel DateModel RefModel TreeModel GazModel StructModel SemModel HtmlModel TxtModel PipeModel.
Local Open Scope Z_scope.

(** * The text that is edited *)

(* "{:>4}".format(q) *)
Definition pad_left (n : nat) (s : pystr) : pystr := spaces (n - List.length s) ++ s.
(* fixup_editor.py:54-56 *)
Definition edit_line (q : Z) (l : line) : res pystr :=
  _ <- assert_ (str_eqb (str_strip (l_content l)) (l_content l)) ;;
  n <- f_int (f_mul (l_indent l) f_fifth) ;;
  Ok (pad_left 4 (str_of_int q) ++ u8 " " ++ spaces (Z.to_nat n) ++ u8 " " ++ l_content l ++ [10%N]).
(* fixup_editor.py:53-57: the file that is written *)
Definition edit_text (body : list line) : res pystr :=
  ls <- mapM (fun p => edit_line (fst p) (snd p)) (g_items (iterate_with_quote_level false body)) ;; Ok (concat ls).
(* fixup_editor.py:51-52 and 58-69: the first line with a negative level, or the last one with level 0 *)
Fixpoint first_negative (n : Z) (l : list (Z * line)) : option Z :=
  match l with [] => None | (q, _) :: t => if q <? 0 then Some n else first_negative (n + 1) t end.
Fixpoint last_zero (n : Z) (l : list (Z * line)) (found : option Z) : option Z :=
  match l with [] => found | (q, _) :: t => last_zero (n + 1) t (if q =? 0 then Some n else found) end.
Definition open_at_line (body : list line) : Z :=
  let l := g_items (iterate_with_quote_level false body) in
  match first_negative 0 l with Some n => n | None => match last_zero 0 l None with Some n => n | None => 0 end end.
(* iterating over a file opened in text mode: lines end with a line feed, a carriage return, or both *)
Fixpoint file_lines (current s : pystr) : list pystr :=
  match s with
  | [] => match current with [] => [] | _ => [current] end
  | c :: t =>
      if (c =? 10)%N then (current ++ [10%N]) :: file_lines [] t
      else if (c =? 13)%N then
        (current ++ [10%N]) :: match t with d :: t' => if (d =? 10)%N then file_lines [] t' else file_lines [] t | [] => [] end
      else file_lines (current ++ [c]) t
  end.
(* fixup_editor.py:72-73 *)
Definition read_edited (s : pystr) : list pystr := map (fun fl => str_strip (skipn 5 fl)) (file_lines [] s).
(* What the editor makes of the text, when it is opened at a line (1 is the first). *)
Definition editing := Z -> pystr -> pystr.
(* fixup_editor.py:49-75 *)
Definition do_file_editing (edit : editing) (body : list line) : res (list pystr) :=
  s <- edit_text body ;; Ok (read_edited (edit (open_at_line body + 1) s)).

(** * The replacements *)

(* fixup_editor.py:45: a dictionary that becomes the arguments of replace_line_content *)
Record replacement := mk_repl { rp_needle : pystr; rp_replacement : pystr; rp_prev : option (list pystr) }.
Definition fixup_of (r : replacement) : fixup := replace_line_content (rp_needle r) (rp_replacement r) (rp_prev r).
(* fixup_editor.py:78-79 *)
Definition count_sublists (haystack needle : list pystr) : nat :=
  List.length (filter (fun i => list_eqb str_eqb (py_slice (Z.of_nat i) (Z.of_nat (i + List.length needle)) haystack) needle)
                 (seq 0 (List.length haystack - List.length needle))).
(* list.count *)
Definition count_line (x : pystr) (l : list pystr) : nat := List.length (filter (str_eqb x) l).
(* fixup_editor.py:96-110: contexts of 1 to 9 lines are tried *)
Fixpoint with_context (original_lines new_lines : list pystr) (line_num : Z) (original_line new_line : pystr) (lens : list Z) : res replacement :=
  match lens with
  | [] => Err ValueError
  | k :: t =>
      let simulated_current_lines := py_slice 0 line_num new_lines ++ py_slice line_num (Z.of_nat (List.length original_lines)) original_lines in
      let needle_prev_lines := py_slice (line_num - k) line_num new_lines in
      if Nat.eqb (count_sublists simulated_current_lines (needle_prev_lines ++ [original_line])) 1
      then Ok (mk_repl original_line new_line (Some needle_prev_lines))
      else with_context original_lines new_lines line_num original_line new_line t
  end.
(* fixup_editor.py:87-110 *)
Fixpoint extract_loop (original_lines new_lines : list pystr) (line_num : Z) (l : list (pystr * pystr)) : res (list replacement) :=
  match l with
  | [] => Ok []
  | (original_line, new_line) :: t =>
      if str_eqb original_line new_line then extract_loop original_lines new_lines (line_num + 1) t
      else
        r <- (if Nat.eqb (count_line original_line original_lines) 1 then Ok (mk_repl original_line new_line None)
              else with_context original_lines new_lines line_num original_line new_line [1; 2; 3; 4; 5; 6; 7; 8; 9]) ;;
        rs <- extract_loop original_lines new_lines (line_num + 1) t ;;
        Ok (r :: rs)
  end.
(* fixup_editor.py:82-111 *)
Definition extract_replacements (original_lines new_lines : list pystr) : res (list replacement) :=
  if negb (Nat.eqb (List.length original_lines) (List.length new_lines)) then Err ValueError
  else extract_loop original_lines new_lines 0 (combine original_lines new_lines).

(** * The replacements that are kept *)

(* the dictionary of replacement_fixups.py *)
Definition replacements := list (pystr * list replacement).
(* fixup_editor.py:114-131.  The file is written with sorted keys; the order of the acts is kept as it is here. *)
Fixpoint save_replacements (identifier : pystr) (new : list replacement) (all : replacements) : replacements :=
  match all with
  | [] => [(identifier, new)]
  | (k, rs) :: t => if str_eqb k identifier then (k, rs ++ new) :: t else (k, rs) :: save_replacements identifier new t
  end.
(* text_fixups.py:25-61: first the ones written there, then the replacements *)
Definition text_fixups (special : list (pystr * fixup)) (all : replacements) : registry :=
  fold_left (fun a p => add_fixup (fst p) (snd p) a)
    (special ++ flat_map (fun e => map (fun r => (fst e, fixup_of r)) (snd e)) all) [].

(* fixup_editor.py:144-146 *)
Definition parses (analyzer : analyzer) (raw : law_text) (body : list line) : res act :=
  a <- parse_act (lw_identifier raw) (lw_date raw) (lw_subject raw) body ;;
  a <- block_parse_act analyzer a ;; add_semantics_to_act analyzer a.
(* fixup_editor.py:138-156; [session]: what is done in the editor each time there is something to fix; then the
   answer is no.  The result: the replacements in the file, and how it ended. *)
Fixpoint detect_errors_and_try_fix (special : list (pystr * fixup)) (analyzer : analyzer) (raw : law_text)
    (session : list editing) (all : replacements) : replacements * option exn :=
  match do_all_fixups (text_fixups special all) (lw_identifier raw) (lw_body raw) with
  | Err e => (all, Some e)
  | Ok fixupped_body =>
      match parses analyzer raw fixupped_body, session with
      | Ok _, _ | Err _, [] => (all, None)
      | Err _, edit :: session =>
          match edited_body <- do_file_editing edit fixupped_body ;; extract_replacements (map l_content fixupped_body) edited_body with
          | Err e => (all, Some e)
          | Ok new => detect_errors_and_try_fix special analyzer raw session (save_replacements (lw_identifier raw) new all)
          end
      end
  end.
