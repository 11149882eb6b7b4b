(* Model of hun_law/fixups/common.py. *)
From Verif Require Import PyBase IdModel LineModel.
Local Open Scope Z_scope.

(* common.py:26.  A body is the list of its lines (extractors/act.py:47 passes a tuple). *)
Definition fixup := list line -> res (list line).
(* common.py:27: a dictionary in insertion order *)
Definition registry := list (pystr * list fixup).

(* common.py:30-35 *)
Fixpoint add_fixup (law_id : pystr) (cb : fixup) (all : registry) : registry :=
  match all with
  | [] => [(law_id, [cb])]
  | (k, fs) :: t =>
      if str_eqb k law_id then (k, fs ++ [cb]) :: t else (k, fs) :: add_fixup law_id cb t
  end.

(* common.py:42-48: every Exception becomes a ValueError *)
Fixpoint run_fixups (fs : list fixup) (body : list line) : res (list line) :=
  match fs with
  | [] => Ok body
  | f :: t =>
      match f body with
      | Ok body' => run_fixups t body'
      | Err _ => Err ValueError
      end
  end.
(* common.py:38-49 *)
Definition do_all_fixups (all : registry) (law_id : pystr) (body : list line) : res (list line) :=
  match find (fun e => str_eqb (fst e) law_id) all with
  | None => Ok body
  | Some (_, fs) => run_fixups fs body
  end.

(* common.py:61-65 and its copies: exactly one *)
Definition exactly_one (needle_count : nat) : res unit :=
  match needle_count with S O => Ok tt | _ => Err ValueError end.

(* common.py:52-66 *)
Fixpoint empty_line_loop (needle : pystr) (body : list line) : list line * nat :=
  match body with
  | [] => ([], O)
  | l :: t =>
      let '(r, n) := empty_line_loop needle t in
      if str_eqb (l_content l) needle then (l :: EMPTY_LINE :: r, S n) else (l :: r, n)
  end.
Definition add_empty_line_after (needle : pystr) : fixup := fun body =>
  let '(result, n) := empty_line_loop needle body in
  _ <- exactly_one n ;; Ok result.

(* common.py:69-83 *)
Fixpoint delete_loop (needle : pystr) (body : list line) : list line * nat :=
  match body with
  | [] => ([], O)
  | l :: t =>
      let '(r, n) := delete_loop needle t in
      if str_eqb (l_content l) needle then (r, S n) else (l :: r, n)
  end.
Definition delete_line (needle : pystr) : fixup := fun body =>
  let '(result, n) := delete_loop needle body in
  _ <- exactly_one n ;; Ok result.

(* common.py:87-91 *)
Fixpoint common_prefix_len (a b : pystr) : nat :=
  match a, b with
  | x :: a', y :: b' => if (x =? y)%N then S (common_prefix_len a' b') else O
  | _, _ => O
  end.
(* common.py:93-98: counts equal characters from the ends, as long as the prefix is not reached *)
Definition common_postfix_len (needle replacement : pystr) : nat :=
  let p := common_prefix_len needle replacement in
  common_prefix_len (rev (skipn p needle)) (rev (skipn p replacement)).

(* common.py:104-108, with the result so far *)
Definition prev_lines_match (prev : option (list pystr)) (result : list line) : bool :=
  match prev with
  | None => true
  | Some ps =>
      (List.length ps <=? List.length result)%nat &&
      list_eqb str_eqb (map l_content (skipn (List.length result - List.length ps) result)) ps
  end.

(* common.py:112-127 *)
Definition replaced_line (needle replacement : pystr) (l : line) : res line :=
  let pre := common_prefix_len needle replacement in
  let post := common_postfix_len needle replacement in
  common_prefix <- l_slice l 0 (Some (Z.of_nat pre)) ;;
  rest <- l_slice l (Z.of_nat pre) None ;;
  ' (replacement_part_s, common_postfix) <-
    (match post with
     | O => Ok (skipn pre replacement, mk_line [] (l_margin_right l))
     | _ => postfix <- l_slice l (- Z.of_nat post) None ;;
            Ok (firstn (List.length replacement - post - pre) (skipn pre replacement), postfix)
     end) ;;
  Ok (l_from_multiple [common_prefix;
                       mk_line [mk_part (l_indent rest) replacement_part_s false] f_zero;
                       common_postfix]).

(* common.py:101-132 *)
Fixpoint replace_loop (needle replacement : pystr) (prev : option (list pystr)) (body result : list line) (n : nat)
  : res (list line * nat) :=
  match body with
  | [] => Ok (result, n)
  | l :: t =>
      if negb (str_eqb (l_content l) needle) || negb (prev_lines_match prev result)
      then replace_loop needle replacement prev t (result ++ [l]) n
      else match replacement with
           | [] => replace_loop needle replacement prev t result (S n)
           | _ => l' <- replaced_line needle replacement l ;;
                  replace_loop needle replacement prev t (result ++ [l']) (S n)
           end
  end.
(* common.py:86-139 *)
Definition replace_line_content (needle replacement : pystr) (prev : option (list pystr)) : fixup := fun body =>
  ' (result, n) <- replace_loop needle replacement prev body [] O ;;
  _ <- exactly_one n ;; Ok result.

(** The header fixer of one act *)

(* A pattern that ends with $ also matches before a final newline. *)
Definition drop_final_newline (s : pystr) : pystr :=
  match rev s with 10%N :: t => rev t | _ => s end.
Definition no_newline (s : pystr) : bool := forallb (fun c => negb (c =? 10)%N) s.

(* common.py:153: one of [ and (, any text without a newline (group 1), one of ) and ], the end *)
Definition title_match (s : pystr) : option pystr :=
  let s := drop_final_newline s in
  match s with
  | o :: t =>
      if (o =? 91)%N || (o =? 40)%N then
        match rev t with
        | c :: m =>
            if ((c =? 41)%N || (c =? 93)%N) && no_newline m then Some (rev m) else None
        | [] => None
        end
      else None
  | [] => None
  end.

(* common.py:154: ASCII digits, a dot, a space, the section sign and a space (group 1), then any text
   without a newline, the end.  The answer is the end of group 1. *)
Fixpoint digits_len (s : pystr) : nat :=
  match s with
  | c :: t => if (48 <=? c)%N && (c <=? 57)%N then S (digits_len t) else O
  | [] => O
  end.
Definition article_match (s : pystr) : option nat :=
  let n := digits_len s in
  match n with
  | O => None
  | _ =>
      match skipn n s with
      | 46%N :: 32%N :: 167%N :: 32%N :: rest =>
          if no_newline (drop_final_newline rest) then Some (n + 4)%nat else None
      | _ => None
      end
  end.

(* common.py:165-179: the two lines made of a title and an article line *)
Definition ptke_pair (prev_line l : line) (title : pystr) (n : nat) : res (line * line) :=
  article_header <- l_slice l 0 (Some (Z.of_nat n)) ;;
  article_rest <- l_slice l (Z.of_nat n) None ;;
  let fixed_title_string :=
    mk_line [mk_part (l_indent prev_line) (u8 "[" ++ title ++ u8 "]") false] (l_margin_right prev_line) in
  Ok (l_from_multiple [article_header; fixed_title_string], l_from_multiple [article_rest]).

(* common.py:156-189 *)
Fixpoint ptke_loop (prev : option line) (body : list line) : res (list line) :=
  match body with
  | [] => Ok (match prev with None => [] | Some p => [p] end)
  | l :: t =>
      match prev with
      | None => ptke_loop (Some l) t
      | Some p =>
          match title_match (l_content p), article_match (l_content l) with
          | Some title, Some n =>
              ' (a, b) <- ptke_pair p l title n ;;
              r <- ptke_loop None t ;; Ok (a :: b :: r)
          | _, _ => r <- ptke_loop (Some l) t ;; Ok (p :: r)
          end
      end
  end.
(* common.py:142-189 *)
Definition ptke_article_header_fixer : fixup := ptke_loop None.
