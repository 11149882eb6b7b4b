(* C09 - C12: quote levels, joining and splitting, slicing and concatenating lines. *)
From Coq Require Import ZArith.
From Verif Require Import PyBase IdModel LineModel LineSpec LineProofs.
Local Open Scope Z_scope.

(* a line with one part per character, at the given x step *)
Definition char_line (s : pystr) : line := mk_line (map (fun c => mk_part (f_of_Z 5) [c] false) s) (f_of_Z 40).

(** C09: the level reported with a line is the number of quotes opened minus closed before it;
    lines are yielded in order; with checking on, the run ends normally exactly when no prefix
    closes more than it opened and all quotes are closed at the end. *)
Theorem C09_levels : forall throw ls i q l,
  nth_error (g_items (iterate_with_quote_level throw ls)) i = Some (q, l) ->
  nth_error ls i = Some l /\ q = open_after (firstn i ls).
Proof. exact quote_levels. Qed.
Print Assumptions C09_levels.

Theorem C09_unchecked : forall ls,
  List.length (g_items (iterate_with_quote_level false ls)) = List.length ls /\
  g_end (iterate_with_quote_level false ls) = None.
Proof. exact (fun ls => quote_loop_nothrow ls 0). Qed.
Print Assumptions C09_unchecked.

Theorem C09_checked : forall ls,
  (g_end (iterate_with_quote_level true ls) = None <->
   open_after ls = 0 /\ forall i, (i <= List.length ls)%nat -> 0 <= open_after (firstn i ls)) /\
  (forall e, g_end (iterate_with_quote_level true ls) = Some e -> e = ValueError).
Proof. exact (fun ls => conj (quote_ok_iff ls) (quote_fail ls)). Qed.
Print Assumptions C09_checked.

(* every line is yielded, except those after the line that closes too many quotes *)
Theorem C09_yielded : forall ls,
  let n := List.length (g_items (iterate_with_quote_level true ls)) in
  n = List.length ls \/
  ((0 < n <= List.length ls)%nat /\ open_after (firstn n ls) < 0 /\
   g_end (iterate_with_quote_level true ls) = Some ValueError).
Proof. exact quote_yield_count. Qed.
Print Assumptions C09_yielded.
Example C09_ex :
  let ls := [char_line (u8 "a „b"); char_line (u8 "c"); char_line (u8 "d” e")] in
  map fst (g_items (iterate_with_quote_level true ls)) = [0; 1; 1] /\
  g_end (iterate_with_quote_level true ls) = None /\
  g_end (iterate_with_quote_level true (tl ls)) = Some ValueError.
Proof. vm_compute. auto. Qed.

(** C10 *)
Theorem C10_join : forall ls, joined ls (join_line_strs ls).
Proof. exact join_joined. Qed.
Print Assumptions C10_join.
Theorem C10_join_keeps : forall ls,
  List.filter (fun c => negb (c =? 32)%N) (join_line_strs ls)
    = flat_map (List.filter (fun c => negb (c =? 32)%N)) ls /\
  (List.length (join_line_strs ls) <= List.length (concat ls) + (List.length ls - 1))%nat.
Proof.
  exact (fun ls => conj (joined_nonspace _ _ (join_joined ls)) (proj2 (joined_length _ _ (join_joined ls)))).
Qed.
Print Assumptions C10_join_keeps.
Example C10_join_ex : join_line_strs [u8 "a b"; u8 "c-"; u8 "d"] = u8 "a b c-d".
Proof. vm_compute. reflexivity. Qed.

Theorem C10_flatten : forall A (l : list (nested A)), flatten l = Ok (flat_map leaves l).
Proof. exact @flatten_spec. Qed.
Print Assumptions C10_flatten.
Example C10_flatten_ex : flatten [Node [Leaf 1; Node [Node []; Leaf 2]]; Leaf 3] = Ok [1; 2; 3].
Proof. reflexivity. Qed.

Theorem C10_split_list : forall A (eqb : A -> A -> bool) haystack needle,
  concat (split_list eqb haystack needle) = haystack /\
  Forall (fun p => p <> [] /\ Forall (fun e => eqb e needle = false) (tl p)) (split_list eqb haystack needle) /\
  Forall (fun p => exists e t, p = e :: t /\ eqb e needle = true) (tl (split_list eqb haystack needle)).
Proof.
  intros A eqb hs needle. split; [|split].
  - apply (split_list_loop_spec eqb needle hs []). auto.
  - apply split_list_loop_pieces. constructor.
  - apply split_list_loop_heads.
Qed.
Print Assumptions C10_split_list.
Example C10_split_list_ex : split_list Z.eqb [1; 2; 0; 3; 0; 0; 4] 0 = [[1; 2]; [0; 3]; [0]; [0; 4]].
Proof. reflexivity. Qed.

(** C11: a slice that is returned reads as the substring, unless the start lies strictly inside
    the last part, when the result is the empty line; kept parts keep their positions; failure
    is always a ValueError, and never happens on lines of one-character parts. *)
Theorem C11_content : forall l s e r, l_slice l s e = Ok r ->
  let n := Z.of_nat (List.length (l_content l)) in
  l_content r = substring (l_content l) (from_end n s)
                  (from_end n (match e with None => n | Some e => e end))
  \/ (r = EMPTY_LINE /\ exists before last, l_parts l = before ++ [last] /\
      Z.of_nat (List.length (flat_map p_content before)) < from_end n s < n).
Proof. exact slice_content. Qed.
Print Assumptions C11_content.

Theorem C11_positions : forall l s e r, l_slice l s e = Ok r -> r <> EMPTY_LINE ->
  exists before kept after,
    l_parts l = before ++ kept ++ after /\
    map p_content (l_parts r) = map p_content kept /\
    map p_bold (l_parts r) = map p_bold kept /\
    List.length (flat_map p_content before) = Z.to_nat (from_end (Z.of_nat (List.length (l_content l))) s) /\
    Forall2 same_float (positions r)
      (firstn (List.length kept) (skipn (List.length before) (positions l))).
Proof. exact slice_positions. Qed.
Print Assumptions C11_positions.

Theorem C11_error : forall l s e x, l_slice l s e = Err x -> x = ValueError.
Proof. exact slice_error. Qed.
Print Assumptions C11_error.

Theorem C11_single_chars : forall l s e,
  Forall (fun p => List.length (p_content p) = 1%nat) (l_parts l) ->
  let n := Z.of_nat (List.length (l_content l)) in
  let end_ := from_end n (match e with None => n | Some e => e end) in
  0 <= from_end n s -> end_ <= n ->
  exists r, l_slice l s e = Ok r /\
    Forall (fun p => List.length (p_content p) = 1%nat) (l_parts r) /\
    l_content r = substring (l_content l) (from_end n s) end_.
Proof. exact slice_char_ok. Qed.
Print Assumptions C11_single_chars.
Example C11_ex : exists r, l_slice (char_line (u8 "(1) szöveg")) 4 None = Ok r /\
  l_content r = u8 "szöveg" /\ l_indent r = f_of_Z 25.
Proof. eexists. split; [vm_compute; reflexivity|]. vm_compute. auto. Qed.

(* the silent loss: cutting inside the last part gives nothing instead of an error *)
Theorem C11_last_part_refuted : exists l s r, l_slice l s None = Ok r /\
  l_content r <> substring (l_content l) s (Z.of_nat (List.length (l_content l))) /\
  0 <= s <= Z.of_nat (List.length (l_content l)).
Proof.
  exists (mk_line [mk_part (f_of_Z 5) (u8 "ab") false; mk_part (f_of_Z 5) (u8 "cdef") false] f_zero), 3, EMPTY_LINE.
  split; [vm_compute; reflexivity|]. split; vm_compute; [discriminate|split; discriminate].
Qed.
Print Assumptions C11_last_part_refuted.

(** C12: contents are concatenated; a line's first part loses its boldness; positions are kept
    whenever subtracting and re-adding the previous position is exact. *)
Theorem C12_content : forall ls,
  l_content (l_from_multiple ls) = flat_map l_content ls /\
  map p_bold (l_parts (l_from_multiple ls)) =
    flat_map (fun l => match map p_bold (l_parts l) with [] => [] | _ :: t => false :: t end) ls /\
  (forall l, l_margin_right (l_from_multiple (ls ++ [l])) = l_margin_right l).
Proof.
  intros ls. split; [apply from_multiple_content|]. split; [apply from_multiple_bold|].
  intros l. unfold l_from_multiple. rewrite rev_app_distr. reflexivity.
Qed.
Print Assumptions C12_content.

Theorem C12_positions : forall ls,
  (forall x y, In x (flat_map positions ls) \/ x = f_zero -> In y (map l_indent ls) ->
     same_float (f_add x (f_sub y x)) y) ->
  Forall2 same_float (positions (l_from_multiple ls)) (flat_map positions ls).
Proof.
  intros ls H. apply from_multiple_positions.
  exact (undoable_all ls H).
Qed.
Print Assumptions C12_positions.
Example C12_positions_ex :
  let ls := [char_line (u8 "ab"); char_line (u8 "c"); EMPTY_LINE; char_line (u8 "d")] in
  (forall x y, In x (flat_map positions ls) \/ x = f_zero -> In y (map l_indent ls) ->
     same_float (f_add x (f_sub y x)) y).
Proof.
  intros ls x y Hx Hy.
  assert (C : forallb (fun x => forallb (fun y => same_floatb (f_add x (f_sub y x)) y)
     (map l_indent ls)) (f_zero :: flat_map positions ls) = true) by (vm_compute; reflexivity).
  rewrite forallb_forall in C.
  assert (C2 := C x ltac:(destruct Hx as [Hx| ->]; [now right|now left])).
  rewrite forallb_forall in C2. apply same_floatb_ok, (C2 y Hy).
Qed.

(* With coordinates that are not exact, a line can move: 41.35 after 500.54 comes out as
   41.35000000000002. *)
Theorem C12_positions_refuted : exists l1 l2 x,
  positions l2 = [x] /\ f_eqb (last (positions (l_from_multiple [l1; l2])) f_zero) x = false.
Proof.
  exists (mk_line [mk_part (f_dyadic 8805592802671985 (-44)) (u8 "a") false] f_zero),
         (mk_line [mk_part (f_dyadic 5819495143492813 (-47)) (u8 "b") false] f_zero),
         (f_dyadic 5819495143492813 (-47)).
  split; vm_compute; reflexivity.
Qed.
Print Assumptions C12_positions_refuted.
