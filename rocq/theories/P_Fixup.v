(* C15 - C17, C52: text fixups. *)
From Coq Require Import ZArith.
From Verif Require Import PyBase PyBaseFacts IdModel LineModel FixupModel LineSpec FixupSpec LineProofs FixupProofs P_Line.

Definition fx_body : list line :=
  map char_line [u8 "1. § A címe"; u8 "(1) Szöveg"; u8 "2. § Más"; u8 "(1) Szöveg"].

(** C15: deleting a line, or adding an empty one after it, succeeds exactly when one line has that text;
    every other line is kept in its place. *)
Theorem C15_delete : forall needle body r,
  delete_line needle body = Ok r <->
  exists before l after, body = before ++ l :: after /\ l_content l = needle /\
    Forall (fun x => l_content x <> needle) before /\ Forall (fun x => l_content x <> needle) after /\
    r = before ++ after.
Proof. exact delete_spec. Qed.
Print Assumptions C15_delete.
Theorem C15_add_empty : forall needle body r,
  add_empty_line_after needle body = Ok r <->
  exists before l after, body = before ++ l :: after /\ l_content l = needle /\
    Forall (fun x => l_content x <> needle) before /\ Forall (fun x => l_content x <> needle) after /\
    r = before ++ l :: EMPTY_LINE :: after.
Proof. exact add_empty_spec. Qed.
Print Assumptions C15_add_empty.
Theorem C15_errors : forall needle body e,
  delete_line needle body = Err e \/ add_empty_line_after needle body = Err e -> e = ValueError.
Proof. intros needle body e [H|H]; [exact (delete_err _ _ _ H)|exact (add_empty_err _ _ _ H)]. Qed.
Print Assumptions C15_errors.
Example C15_ex :
  (exists r, delete_line (u8 "2. § Más") fx_body = Ok r /\ map l_content r = [u8 "1. § A címe"; u8 "(1) Szöveg"; u8 "(1) Szöveg"]) /\
  (exists r, add_empty_line_after (u8 "2. § Más") fx_body = Ok r /\
     map l_content r = [u8 "1. § A címe"; u8 "(1) Szöveg"; u8 "2. § Más"; []; u8 "(1) Szöveg"]) /\
  delete_line (u8 "(1) Szöveg") fx_body = Err ValueError /\ delete_line (u8 "Nincs") fx_body = Err ValueError.
Proof. split; [|split]; [eexists; split; vm_compute; reflexivity|eexists; split; vm_compute; reflexivity|]. vm_compute. auto. Qed.

(** C16: on lines of one-character parts, replacing succeeds exactly when one line is meant; the new line
    reads as the replacement and the common characters stay where they were. *)
Theorem C16_replace : forall needle replacement prev body r,
  Forall one_char_parts body ->
  replace_line_content needle replacement prev body = Ok r ->
  exists before l after new, body = before ++ l :: after /\ r = before ++ new ++ after /\
    l_content l = needle /\
    only_meant needle prev (match replacement with [] => [] | _ => [replacement] end)
      (map l_content before) (map l_content after) /\
    (replacement = [] /\ new = [] \/
     replacement <> [] /\ exists l', new = [l'] /\ edited needle replacement l l').
Proof. intros needle replacement prev body r. exact (replace_chars needle replacement prev body r). Qed.
Print Assumptions C16_replace.
Theorem C16_succeeds : forall needle replacement prev before l after,
  Forall one_char_parts (before ++ l :: after) -> l_content l = needle ->
  only_meant needle prev (match replacement with [] => [] | _ => [replacement] end)
    (map l_content before) (map l_content after) ->
  exists r, replace_line_content needle replacement prev (before ++ l :: after) = Ok r.
Proof. exact replace_chars_ok. Qed.
Print Assumptions C16_succeeds.
Theorem C16_edited_text : forall needle replacement l l',
  edited needle replacement l l' -> l_content l' = replacement.
Proof. exact edited_content. Qed.
Print Assumptions C16_edited_text.
(* with parts of any length the text is right if the lines do not end with a longer part *)
Theorem C16_any_parts : forall needle replacement prev body r,
  replace_line_content needle replacement prev body = Ok r ->
  (forall l before last, In l body -> l_parts l = before ++ [last] -> (List.length (p_content last) <= 1)%nat) ->
  exists before l after new, body = before ++ l :: after /\ r = before ++ new ++ after /\
    l_content l = needle /\
    map l_content new = (match replacement with [] => [] | _ => [replacement] end) /\
    only_meant needle prev (match replacement with [] => [] | _ => [replacement] end)
      (map l_content before) (map l_content after).
Proof. exact replace_result. Qed.
Print Assumptions C16_any_parts.
Theorem C16_errors : forall needle replacement prev body e,
  replace_line_content needle replacement prev body = Err e -> e = ValueError.
Proof. exact replace_err. Qed.
Print Assumptions C16_errors.

Lemma fx_body_chars : Forall one_char_parts fx_body.
Proof. repeat constructor. Qed.
Example C16_ex : exists r,
  replace_line_content (u8 "(1) Szöveg") (u8 "(2) Szöveg") (Some [u8 "2. § Más"]) fx_body = Ok r /\
  map l_content r = [u8 "1. § A címe"; u8 "(1) Szöveg"; u8 "2. § Más"; u8 "(2) Szöveg"] /\
  replace_line_content (u8 "(1) Szöveg") (u8 "(2) Szöveg") None fx_body = Err ValueError.
Proof. eexists. split; [vm_compute; reflexivity|]. vm_compute. auto. Qed.
(* the positions of this line survive the float arithmetic, so the hypothesis on exactness is met *)
Example C16_exact_ex : exact_positions (char_line (u8 "(1) Szöveg")).
Proof.
  assert (H : forallb (fun x => forallb (fun y => same_floatb (f_add x (f_sub y x)) y)
                (f_zero :: positions (char_line (u8 "(1) Szöveg")))) (f_zero :: positions (char_line (u8 "(1) Szöveg"))) = true)
    by (vm_compute; reflexivity).
  intros x y Hx Hy. rewrite forallb_forall in H. specialize (H x Hx). rewrite forallb_forall in H.
  apply same_floatb_ok. exact (H y Hy).
Qed.

(* after a replacement at the end of a line, a second one on the same line can lose text without an error *)
Theorem C16_second_replacement_refuted : exists body body' body'',
  replace_line_content (u8 "egy ketto") (u8 "egy három") None body = Ok body' /\
  replace_line_content (u8 "egy három") (u8 "egy atom") None body' = Ok body'' /\
  map l_content body'' <> [u8 "egy atom"].
Proof.
  exists [char_line (u8 "egy ketto")]. eexists _, _. split; [vm_compute; reflexivity|]. split; [vm_compute; reflexivity|].
  vm_compute. discriminate.
Qed.
Print Assumptions C16_second_replacement_refuted.

(* text appended at the end of a line is put at the left edge of the page, not after the line *)
Theorem C16_appended_position_refuted : exists l l',
  replace_line_content (u8 "egy") (u8 "egy.") None [l] = Ok [l'] /\
  l_content l' = u8 "egy." /\
  exact_positions l /\ same_float (nth 3 (positions l') f_zero) f_zero /\
  f_ltb f_zero (nth 2 (positions l') f_zero) = true.
Proof.
  exists (char_line (u8 "egy")). eexists. split; [vm_compute; reflexivity|]. split; [vm_compute; reflexivity|].
  split; [|split; [apply same_floatb_ok; vm_compute; reflexivity|vm_compute; reflexivity]].
  assert (H : forallb (fun x => forallb (fun y => same_floatb (f_add x (f_sub y x)) y)
                (f_zero :: positions (char_line (u8 "egy")))) (f_zero :: positions (char_line (u8 "egy"))) = true)
    by (vm_compute; reflexivity).
  intros x y Hx Hy. rewrite forallb_forall in H. specialize (H x Hx). rewrite forallb_forall in H.
  apply same_floatb_ok. exact (H y Hy).
Qed.
Print Assumptions C16_appended_position_refuted.

(** C17: after any sequence of registrations, the fixups run for an identifier are those registered for
    it, in that order, each on the result of the previous one; the first failure is a ValueError. *)
Theorem C17_registered : forall (history : list (pystr * fixup)) id body,
  applied (map snd (List.filter (fun e => str_eqb (fst e) id) history)) body
    (do_all_fixups (fold_left (fun r e => add_fixup (fst e) (snd e) r) history []) id body).
Proof. exact do_all_applied. Qed.
Print Assumptions C17_registered.
Theorem C17_unregistered : forall (history : list (pystr * fixup)) id body,
  ~ In id (map fst history) ->
  do_all_fixups (fold_left (fun r e => add_fixup (fst e) (snd e) r) history []) id body = Ok body.
Proof.
  intros history id body H. pose proof (do_all_applied history id body) as A. fold (registered history).
  assert (E : List.filter (fun e => str_eqb (fst e) id) history = []).
  { clear A. induction history as [|[k f] h IH]; [reflexivity|]. cbn in *.
    destruct (str_eqb k id) eqn:E; [apply str_eqb_eq in E; tauto|]. apply IH. tauto. }
  unfold fixup in *. rewrite E in A. cbn [map] in A. remember (do_all_fixups (registered history) id body) as r eqn:Er.
  inversion A. reflexivity.
Qed.
Print Assumptions C17_unregistered.
Example C17_ex :
  let all := fold_left (fun r e => add_fixup (fst e) (snd e) r)
    [(u8 "A", delete_line (u8 "2. § Más")); (u8 "B", delete_line (u8 "x")); (u8 "A", delete_line (u8 "1. § A címe"))] [] in
  (exists r, do_all_fixups all (u8 "A") fx_body = Ok r /\ map l_content r = [u8 "(1) Szöveg"; u8 "(1) Szöveg"]) /\
  do_all_fixups all (u8 "B") fx_body = Err ValueError /\ do_all_fixups all (u8 "C") fx_body = Ok fx_body.
Proof. split; [eexists; split; vm_compute; reflexivity|]. vm_compute. auto. Qed.

(** C52: the fixer for the civil code's transitory act moves bracketed titles into article headers. *)
Theorem C52_titles : forall body, Forall one_char_parts body ->
  exists r, ptke_article_header_fixer body = Ok r /\ titles_moved body r /\
    List.length r = List.length body.
Proof.
  intros body H. destruct (proj1 (ptke_loop_spec body H)) as (r & E & M). exists r.
  split; [exact E|]. split; [exact M|]. symmetry. exact (moved_length _ _ M).
Qed.
Print Assumptions C52_titles.
Theorem C52_errors : forall body e, ptke_article_header_fixer body = Err e -> e = ValueError.
Proof. exact (fun body => ptke_err body None). Qed.
Print Assumptions C52_errors.
Example C52_ex : exists r,
  ptke_article_header_fixer (map char_line [u8 "Első"; u8 "(A Ptk. 2:18. §-ához)"; u8 "2. § A Ptk. hatályba-"; u8 "lépésekor"]) = Ok r /\
  map l_content r = [u8 "Első"; u8 "2. § [A Ptk. 2:18. §-ához]"; u8 "A Ptk. hatályba-"; u8 "lépésekor"].
Proof. eexists. split; vm_compute; reflexivity. Qed.
