(* Model of the identifier functions of hun_law/utils.py. *)
From Verif Require Import PyBase NumModel.
Local Open Scope Z_scope.

(* An element of the tuple returned by split_identifier_to_parts: Union[str, int] *)
Inductive idpart :=
| PStr (s : pystr)
| PInt (n : Z).

Definition flush_part (is_digit : bool) (cur : pystr) : res idpart :=
  if is_digit then n <- py_int cur ;; Ok (PInt n) else Ok (PStr cur).

(* utils.py:448-461, the loop with its accumulators result, current_str, last_was_digit *)
Fixpoint split_id_loop (s : pystr) (result : list idpart) (cur : pystr) (last_was_digit : bool)
  : res (list idpart) :=
  match s with
  | [] =>
      match cur with
      | [] => Ok result
      | _ => p <- flush_part last_was_digit cur ;; Ok (result ++ [p])
      end
  | c :: t =>
      if Bool.eqb (isdigit_chr c) last_was_digit then
        split_id_loop t result (cur ++ [c]) last_was_digit
      else
        p <- flush_part last_was_digit cur ;;
        split_id_loop t (result ++ [p]) [c] (isdigit_chr c)
  end.

(* utils.py:444-462 *)
Definition split_identifier_to_parts (s : pystr) : res (list idpart) :=
  split_id_loop s [] [] false.

(* Python's == on str/int values *)
Definition idpart_eqb (a b : idpart) : bool :=
  match a, b with
  | PStr x, PStr y => str_eqb x y
  | PInt x, PInt y => x =? y
  | _, _ => false
  end.

(* Python's < on str/int values: comparing a str with an int raises TypeError *)
Definition idpart_lt (a b : idpart) : res bool :=
  match a, b with
  | PStr x, PStr y => Ok (str_ltb x y)
  | PInt x, PInt y => Ok (x <? y)
  | _, _ => Err TypeError
  end.

(* Python's < on tuples: the first pair of unequal elements decides, else the lengths *)
Fixpoint tuple_lt (a b : list idpart) : res bool :=
  match a, b with
  | _, [] => Ok false
  | [], _ :: _ => Ok true
  | x :: a', y :: b' => if idpart_eqb x y then tuple_lt a' b' else idpart_lt x y
  end.

(* utils.py:465-469 *)
Definition identifier_less (a b : pystr) : res bool :=
  a_parts <- split_identifier_to_parts a ;;
  b_parts <- split_identifier_to_parts b ;;
  tuple_lt a_parts b_parts.

(* utils.py:472-486 *)
Definition is_next_numeric_identifier (identifier next_identifier : pystr) : res bool :=
  let identifier := remove_chr 47 identifier in
  let next_identifier := remove_chr 47 next_identifier in
  if str_isdigit identifier then
    if str_isdigit next_identifier then
      a <- py_int identifier ;;
      b <- py_int next_identifier ;;
      Ok (a + 1 =? b)
    else
      Ok (str_eqb next_identifier (identifier ++ u8 "a")
          || str_eqb next_identifier (identifier ++ u8 "A"))
  else if str_isdigit next_identifier then
    a <- py_int (drop_last identifier) ;;
    b <- py_int next_identifier ;;
    Ok (a + 1 =? b)
  else if str_eqb (drop_last identifier) (drop_last next_identifier) then
    x <- last_chr identifier ;;
    y <- last_chr next_identifier ;;
    Ok (is_next_letter_hun [x] [y])
  else Ok false.

(* utils.py:501-511.  [ident e] is e.identifier (None or a string). *)
Fixpoint cut_by_identifier {E} (ident : E -> option pystr) (elements : list E)
    (from_identifier to_identifier : pystr) : res (list E) :=
  match elements with
  | [] => Ok []
  | e :: t =>
      skip <- (match ident e with
               | None => Ok true
               | Some i =>
                   lt <- identifier_less i from_identifier ;;
                   if (lt : bool) then Ok true
                   else identifier_less to_identifier i
               end) ;;
      rest <- cut_by_identifier ident t from_identifier to_identifier ;;
      Ok (if (skip : bool) then rest else e :: rest)
  end.

(* Arbitrarily nested Python lists, as the tatsu parser returns them *)
Inductive nested (A : Type) :=
| Leaf (a : A)
| Node (l : list (nested A)).
Arguments Leaf {A} a.
Arguments Node {A} l.

Fixpoint nested_size {A} (n : nested A) : nat :=
  match n with
  | Leaf _ => 1
  | Node l => S (fold_right (fun x acc => nested_size x + acc)%nat O l)
  end.

(* utils.py:434-441.  The deque holds the work still to do; [None] is out of fuel. *)
Fixpoint flatten_loop {A} (fuel : nat) (deque : list (nested A)) : option (list A) :=
  match deque with
  | [] => Some []
  | Leaf a :: t =>
      match fuel with
      | O => None
      | S f => option_map (cons a) (flatten_loop f t)
      end
  | Node l :: t =>
      match fuel with
      | O => None
      | S f => flatten_loop f (l ++ t)
      end
  end.

Definition flatten {A} (l : list (nested A)) : res (list A) :=
  match flatten_loop (nested_size (Node l)) l with
  | Some r => Ok r
  | None => Err OutOfFuel
  end.

(* utils.py:189-199.  [eqb] is the elements' ==; the result is the list of yielded lists. *)
Fixpoint split_list_loop {A} (eqb : A -> A -> bool) (haystack : list A) (needle : A)
    (result : list A) : list (list A) :=
  match haystack with
  | [] => match result with [] => [] | _ => [result] end
  | e :: t =>
      if eqb e needle then
        match result with
        | [] => split_list_loop eqb t needle [e]
        | _ => result :: split_list_loop eqb t needle [e]
        end
      else split_list_loop eqb t needle (result ++ [e])
  end.
Definition split_list {A} (eqb : A -> A -> bool) (haystack : list A) (needle : A) :=
  split_list_loop eqb haystack needle [].

(* utils.py:489-495 *)
Definition join_step (result s : pystr) : pystr :=
  match rev result with
  | [] => result ++ s
  | c :: _ => if (c =? 45)%N then result ++ s else (result ++ [32%N]) ++ s
  end.
Definition join_line_strs (lines : list pystr) : pystr := fold_left join_step lines [].

(* structure.py:592-619, Article.is_next_identifier; the part after the book prefix is removed *)
Definition article_next_in_book (identifier next_identifier : pystr) : res bool :=
  if negb (mem_chr 47 identifier) then
    if negb (mem_chr 47 next_identifier) then
      a <- py_int identifier ;;
      b <- py_int next_identifier ;;
      Ok (a + 1 =? b)
    else Ok (str_eqb (identifier ++ u8 "/A") next_identifier)
  else
    match split_chr 47 identifier with
    | [id1; postfix1] =>
        if negb (mem_chr 47 next_identifier) then
          a <- py_int id1 ;;
          b <- py_int next_identifier ;;
          Ok (a + 1 =? b)
        else
          match split_chr 47 next_identifier with
          | [id2; postfix2] => Ok (str_eqb id1 id2 && is_next_letter_hun postfix1 postfix2)
          | _ => Err ValueError
          end
    | _ => Err ValueError
    end.

Definition article_is_next_identifier (identifier next_identifier : pystr) : res bool :=
  if negb (Bool.eqb (mem_chr 58 identifier) (mem_chr 58 next_identifier)) then Ok false
  else if mem_chr 58 identifier then
    match split_chr 58 identifier, split_chr 58 next_identifier with
    | [book; identifier'], [next_book; next_identifier'] =>
        if negb (str_eqb book next_book) then
          a <- py_int book ;;
          b <- py_int next_book ;;
          Ok ((a + 1 =? b) && str_eqb next_identifier' (u8 "1"))
        else article_next_in_book identifier' next_identifier'
    | _, _ => Err ValueError
    end
  else article_next_in_book identifier next_identifier.
