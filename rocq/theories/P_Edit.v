(* C62: the fixup editor. *)
From Verif Require Import PyBase PyBaseFacts IdModel LineModel LineSpec DateModel RefModel TreeModel FixupModel FixupSpec LineProofs FixupProofs GazModel StructModel SemModel HtmlModel TxtModel PipeModel EditModel EditSpec EditProofs P_Line P_Fixup.
Local Open Scope Z_scope.

(** C62: the replacements made of an edited text turn the lines into the edited ones, and into nothing else, if
    they can be applied at all, no line is emptied, and the last line is not an edited copy of another one. *)
Theorem C62_sound : forall body new rs body', Forall one_char_parts body -> none_emptied (map l_content body) new -> last_line_fine (map l_content body) new ->
  extract_replacements (map l_content body) new = Ok rs -> run_fixups (map fixup_of rs) body = Ok body' -> edited_as body new body'.
Proof. exact edit_sound. Qed.
Print Assumptions C62_sound.
Theorem C62_text : forall body new body', edited_as body new body' -> map l_content body' = new.
Proof. exact edited_as_text. Qed.
Print Assumptions C62_text.
(* They can be applied if the old texts are there once, and are not among the new ones. *)
Theorem C62_complete : forall body new, Forall one_char_parts body -> List.length new = List.length body -> clear_edit (map l_content body) new ->
  exists rs body', extract_replacements (map l_content body) new = Ok rs /\ run_fixups (map fixup_of rs) body = Ok body' /\ edited_as body new body'.
Proof. exact edit_complete. Qed.
Print Assumptions C62_complete.
Theorem C62_errors : forall original new e, extract_replacements original new = Err e -> e = ValueError.
Proof. exact extract_errors. Qed.
Print Assumptions C62_errors.
Definition c62_new : list pystr := [u8 "1. § A címe"; u8 "(2) Szöveg"; u8 "2. § Más,"; u8 "(1) Szöveg"].
Example C62_ex : exists rs body', extract_replacements (map l_content fx_body) c62_new = Ok rs /\ run_fixups (map fixup_of rs) fx_body = Ok body' /\ map l_content body' = c62_new /\
  Forall one_char_parts fx_body /\ none_emptied (map l_content fx_body) c62_new /\ last_line_fine (map l_content fx_body) c62_new /\
  map rp_prev rs = [Some [u8 "1. § A címe"]; None].
Proof.
  eexists _, _. split; [vm_compute; reflexivity|]. split; [vm_compute; reflexivity|]. split; [vm_compute; reflexivity|]. split; [exact fx_body_chars|]. split.
  - intros o [E|[E|[E|[E|[]]]]]; discriminate.
  - split.
    + intros a o b n Ea Eb. left. apply (f_equal (@rev pystr)) in Ea, Eb. rewrite rev_app_distr in Ea, Eb. vm_compute in Ea, Eb. congruence.
    + vm_compute. reflexivity.
Qed.
Example C62_complete_ex : Forall one_char_parts fx_body /\ clear_edit (map l_content fx_body) [u8 "1. § Új cím"; u8 "(1) Szöveg"; u8 "2. § Más,"; u8 "(1) Szöveg"].
Proof.
  split; [exact fx_body_chars|]. intros o n [E|[E|[E|[E|[]]]]] D; injection E as <- <-; try (now destruct D); split; try discriminate; split.
  - vm_compute. intuition discriminate.
  - exists [], [u8 "(1) Szöveg"; u8 "2. § Más"; u8 "(1) Szöveg"]. vm_compute. intuition discriminate.
  - vm_compute. intuition discriminate.
  - exists [u8 "1. § A címe"; u8 "(1) Szöveg"], [u8 "(1) Szöveg"]. vm_compute. intuition discriminate.
Qed.

(* The text in the editor: without a change nothing is replaced; the text behind the first five characters of a line is read. *)
Theorem C62_unedited : forall body s, Forall (fun l => on_one_line (l_content l)) body -> (forall n q, level_at 0 body n = Some q -> -1000 < q < 10000) ->
  edit_text body = Ok s -> read_edited s = map l_content body /\ extract_replacements (map l_content body) (read_edited s) = Ok [].
Proof. intros body s O L E. rewrite (unedited body s O L E). split; [reflexivity|apply extract_unchanged]. Qed.
Print Assumptions C62_unedited.
Theorem C62_edited : forall lines, Forall (fun p => List.length (fst p) = 5%nat /\ on_one_line (fst p) /\ on_one_line (snd p)) lines ->
  read_edited (concat (map (fun p => fst p ++ snd p ++ [10%N]) lines)) = map (fun p => str_strip (snd p)) lines.
Proof. exact read_lines. Qed.
Print Assumptions C62_edited.
(* It is opened at the first line with a closing quote too many before it, or else at the last one without open quotes. *)
Theorem C62_opened : forall body, body <> [] -> exists n q, open_at_line body = Z.of_nat n /\ level_at 0 body n = Some q /\
  (q < 0 /\ (forall j y, (j < n)%nat -> level_at 0 body j = Some y -> 0 <= y) \/
   q = 0 /\ forall j y, level_at 0 body j = Some y -> 0 <= y /\ ((n < j)%nat -> y <> 0)).
Proof. exact opened_at. Qed.
Print Assumptions C62_opened.
Definition c62_quoted : list line := map char_line [u8 "A „b"; u8 "c” d"; u8 "„e"; u8 "f"].
Example C62_text_ex : exists s, edit_text c62_quoted = Ok s /\ read_edited s = map l_content c62_quoted /\ open_at_line c62_quoted = 2 /\
  s = concat (map (fun x => x ++ [10%N]) [u8 "   0   A „b"; u8 "   1   c” d"; u8 "   0   „e"; u8 "   1   f"]) /\
  (forall n q, level_at 0 c62_quoted n = Some q -> -1000 < q < 10000) /\ open_at_line (map char_line [u8 "a"; u8 "b”"; u8 "„c"; u8 "d”"; u8 "e"]) = 2.
Proof.
  eexists. split; [vm_compute; reflexivity|]. split; [vm_compute; reflexivity|]. split; [vm_compute; reflexivity|]. split; [vm_compute; reflexivity|]. split; [|vm_compute; reflexivity].
  intros [|[|[|[|n]]]] q E; vm_compute in E; try (injection E as <-; split; reflexivity). destruct n; discriminate.
Qed.

(* What is saved for an act is done after what was done before, and for this act only. *)
Theorem C62_saved : forall special all id new body, NoDup (map fst all) ->
  do_all_fixups (text_fixups special (save_replacements id new all)) id body = (b <- do_all_fixups (text_fixups special all) id body ;; run_fixups (map fixup_of new) b) /\
  forall id', id' <> id -> do_all_fixups (text_fixups special (save_replacements id new all)) id' body = do_all_fixups (text_fixups special all) id' body.
Proof. exact saved_fixups. Qed.
Print Assumptions C62_saved.
Theorem C62_session : forall special an raw session all all' e, NoDup (map fst all) -> detect_errors_and_try_fix special an raw session all = (all', e) ->
  NoDup (map fst all') /\ (exists new, kept all' (lw_identifier raw) = kept all (lw_identifier raw) ++ new) /\ forall id, id <> lw_identifier raw -> kept all' id = kept all id.
Proof. exact session_grows. Qed.
Print Assumptions C62_session.

(** * Findings *)
(* An edit of the last of three equal lines changes the second one. *)
Theorem C62_last_line_refuted : exists body new rs body',
  Forall one_char_parts body /\ none_emptied (map l_content body) new /\ extract_replacements (map l_content body) new = Ok rs /\
  run_fixups (map fixup_of rs) body = Ok body' /\ new = [u8 "egy"; u8 "egy"; u8 "más"] /\ map l_content body' = [u8 "egy"; u8 "más"; u8 "egy"].
Proof.
  exists (map char_line [u8 "egy"; u8 "egy"; u8 "egy"]), [u8 "egy"; u8 "egy"; u8 "más"]. eexists _, _. split; [repeat constructor|]. split; [intros o [E|[E|[E|[]]]]; discriminate|].
  split; [vm_compute; reflexivity|]. split; [vm_compute; reflexivity|]. split; [reflexivity|]. vm_compute. reflexivity.
Qed.
Print Assumptions C62_last_line_refuted.
(* A line that is emptied is removed, although lines must not be removed. *)
Theorem C62_emptied_refuted : exists body rs body', Forall one_char_parts body /\
  extract_replacements (map l_content body) [u8 "egy"; []] = Ok rs /\ run_fixups (map fixup_of rs) body = Ok body' /\ map l_content body' = [u8 "egy"].
Proof. exists (map char_line [u8 "egy"; u8 "más"]). eexists _, _. split; [repeat constructor|]. split; [vm_compute; reflexivity|]. split; vm_compute; reflexivity. Qed.
Print Assumptions C62_emptied_refuted.
(* The last line is not found by its context, although the line before it is there only once. *)
Theorem C62_context_refuted : exists original new, extract_replacements original new = Err ValueError /\ List.length original = List.length new /\
  (exists a b x y z, original = a ++ [x; y] /\ new = a ++ [x; z] /\ ~ In x a /\ x <> y /\ x <> z /\ a = y :: b).
Proof.
  exists ([u8 "y"; u8 "1"; u8 "2"; u8 "3"; u8 "4"; u8 "5"; u8 "6"; u8 "7"; u8 "8"] ++ [u8 "x"; u8 "y"]), ([u8 "y"; u8 "1"; u8 "2"; u8 "3"; u8 "4"; u8 "5"; u8 "6"; u8 "7"; u8 "8"] ++ [u8 "x"; u8 "z"]).
  split; [vm_compute; reflexivity|]. split; [reflexivity|]. eexists _, _, _, _, _. split; [reflexivity|]. split; [reflexivity|]. split; [vm_compute; intuition discriminate|]. split; [discriminate|]. split; [discriminate|]. reflexivity.
Qed.
Print Assumptions C62_context_refuted.
(* Replacements that cannot be applied are saved; from then on the act cannot be extracted at all. *)
Definition c62_law : law_text := mk_law (u8 "2011. évi I. törvény") (mk_date 2011 1 1) (u8 "a tárgyról") (map char_line [u8 "egy"; u8 "más"]).
Definition c62_edit : editing := fun _ _ => concat (map (fun x => u8 "   0 " ++ x ++ [10%N]) [u8 "más"; u8 "három"]).
Theorem C62_broken_refuted : forall analyzer, exists all,
  detect_errors_and_try_fix [] analyzer c62_law [c62_edit] [] = (all, Some ValueError) /\
  do_all_fixups (text_fixups [] []) (lw_identifier c62_law) (lw_body c62_law) = Ok (lw_body c62_law) /\
  do_all_fixups (text_fixups [] all) (lw_identifier c62_law) (lw_body c62_law) = Err ValueError.
Proof.
  intros an. exists [(u8 "2011. évi I. törvény", [mk_repl (u8 "egy") (u8 "más") None; mk_repl (u8 "más") (u8 "három") None])].
  split; [|split; vm_compute; reflexivity]. assert (P : forall b, do_all_fixups (text_fixups [] []) (lw_identifier c62_law) (lw_body c62_law) = Ok b -> exists e, parses an c62_law b = Err e).
  { intros b E. vm_compute in E. injection E as <-. eexists. unfold parses. match goal with |- context [parse_act ?i ?d ?s ?b] => let r := eval vm_compute in (parse_act i d s b) in change (parse_act i d s b) with r end. reflexivity. }
  cbn [detect_errors_and_try_fix]. destruct (do_all_fixups (text_fixups [] []) _ _) as [b|] eqn:E; [|vm_compute in E; discriminate]. destruct (P b eq_refl) as [e ->].
  vm_compute in E. injection E as <-. vm_compute. reflexivity.
Qed.
Print Assumptions C62_broken_refuted.
