(* The fragment of the Python runtime that the modelled code uses: exceptions, strings,
   integers and their textual forms.  Nothing in this file models code of /repo; it models
   built-in behaviour of CPython that /repo relies on. *)
From Coq Require Export String Ascii.
From Coq Require Export List ZArith NArith Bool Lia.
From Verif Require Import Unicode.
Export ListNotations.
Open Scope list_scope.

Arguments Nat.leb : simpl never.
Arguments Nat.ltb : simpl never.
Arguments N.add : simpl never.
Arguments N.mul : simpl never.
Arguments N.sub : simpl never.
Arguments N.div : simpl never.
Arguments N.modulo : simpl never.
Arguments N.leb : simpl never.
Arguments N.ltb : simpl never.
Arguments Z.add : simpl never.
Arguments Z.mul : simpl never.
Arguments Z.sub : simpl never.
Arguments Z.opp : simpl never.
Arguments Z.div : simpl never.
Arguments Z.modulo : simpl never.
Arguments Z.leb : simpl never.
Arguments Z.ltb : simpl never.
Arguments Z.of_nat : simpl never.
Arguments Z.to_nat : simpl never.

(** * Exceptions as values *)

(* One constructor per exception class that the modelled code raises or catches. *)
Inductive exn :=
| ValueError | TypeError | KeyError | IndexError | AssertionError | AttributeError
| OverflowError | RuntimeError | OSError
| FailedParse                          (* tatsu: the text does not match the grammar *)
| StructureParsingError                (* structure_parser.py:73 *)
| SubArticleElementNotFoundError       (* structure_parser.py:244 *)
| NoSubelementsError                   (* structure_parser.py:248 *)
| SubArticleParsingError               (* structure_parser.py:252 *)
| ArticleParsingError                  (* structure_parser.py:592 *)
| ActParsingError                      (* structure_parser.py:708 *)
| BlockAmendmentStructureParsingError  (* structure_parser.py:748 *)
| GrammaticalParsingError              (* grammatical_analyzer.py:707 *)
| OutOfFuel.                           (* the model's own: excluded by the theorems *)

(* "except ValueError" also catches the subclasses of ValueError (structure_parser.py:73). *)
Definition is_value_error (e : exn) : bool :=
  match e with
  | ValueError | StructureParsingError | SubArticleParsingError | ArticleParsingError
  | ActParsingError | BlockAmendmentStructureParsingError => true
  | _ => false
  end.

Inductive res (A : Type) :=
| Ok (a : A)
| Err (e : exn).
Arguments Ok {A} a.
Arguments Err {A} e.

Definition bind {A B} (r : res A) (f : A -> res B) : res B :=
  match r with Ok a => f a | Err e => Err e end.

Notation "x <- e ;; f" := (bind e (fun x => f))
  (at level 61, e at next level, right associativity).
Notation "' p <- e ;; f" := (bind e (fun p => f))
  (at level 61, p pattern, e at next level, right associativity).

Definition is_ok {A} (r : res A) : bool := match r with Ok _ => true | Err _ => false end.

Fixpoint mapM {A B} (f : A -> res B) (l : list A) : res (list B) :=
  match l with
  | [] => Ok []
  | x :: t => y <- f x ;; ys <- mapM f t ;; Ok (y :: ys)
  end.

Definition assert_ (b : bool) : res unit := if b then Ok tt else Err AssertionError.

(** * Strings: lists of Unicode code points *)

Notation pystr := (list N).

(* Decode a UTF-8 Coq string literal into code points (used only to write literals). *)
Fixpoint utf8_decode_aux (s : string) (pending : nat) (acc : N) : list N :=
  match s with
  | EmptyString => []
  | String a t =>
      let b := N_of_ascii a in
      match pending with
      | O =>
          if (b <? 128)%N then b :: utf8_decode_aux t 0 0
          else if (b <? 224)%N then utf8_decode_aux t 1 (b - 192)%N
          else if (b <? 240)%N then utf8_decode_aux t 2 (b - 224)%N
          else utf8_decode_aux t 3 (b - 240)%N
      | S p =>
          let acc' := (acc * 64 + (b - 128))%N in
          match p with
          | O => acc' :: utf8_decode_aux t 0 0
          | S _ => utf8_decode_aux t p acc'
          end
      end
  end.

Definition U (s : string) : pystr := utf8_decode_aux s 0 0.

(* [u8 "text"] is the code point list of the literal, computed when the term is parsed. *)
Notation "'u8' s" := (ltac:(let x := eval vm_compute in (U s%string) in exact x))
  (at level 0, s at level 0, only parsing).

Fixpoint list_eqb {A} (eqb : A -> A -> bool) (a b : list A) : bool :=
  match a, b with
  | [], [] => true
  | x :: a', y :: b' => eqb x y && list_eqb eqb a' b'
  | _, _ => false
  end.

Definition str_eqb : pystr -> pystr -> bool := list_eqb N.eqb.

Definition opt_eqb {A} (eqb : A -> A -> bool) (a b : option A) : bool :=
  match a, b with
  | None, None => true
  | Some x, Some y => eqb x y
  | _, _ => false
  end.

(* str < str: lexicographic by code point *)
Fixpoint str_ltb (a b : pystr) : bool :=
  match a, b with
  | _, [] => false
  | [], _ :: _ => true
  | x :: a', y :: b' => if N.eqb x y then str_ltb a' b' else N.ltb x y
  end.

(* s.startswith(p) *)
Fixpoint startswith (p s : pystr) : bool :=
  match p, s with
  | [], _ => true
  | x :: p', y :: s' => N.eqb x y && startswith p' s'
  | _ :: _, [] => false
  end.

(* s.endswith(p) *)
Definition endswith (p s : pystr) : bool := startswith (rev p) (rev s).

(* p in s *)
Fixpoint contains_sub (p s : pystr) : bool :=
  startswith p s || match s with [] => false | _ :: s' => contains_sub p s' end.

(* s.find(p) as an option *)
Fixpoint find_sub (p s : pystr) : option nat :=
  if startswith p s then Some 0
  else match s with
       | [] => None
       | _ :: s' => option_map S (find_sub p s')
       end.

(* s.index(p) *)
Definition index_sub (p s : pystr) : res nat :=
  match find_sub p s with Some n => Ok n | None => Err ValueError end.

Definition mem_chr (c : N) (s : pystr) : bool := existsb (N.eqb c) s.
Definition mem_str (x : pystr) (l : list pystr) : bool := existsb (str_eqb x) l.

(* s.count(c) for a single character *)
Definition count_chr (c : N) (s : pystr) : nat :=
  List.length (List.filter (N.eqb c) s).

(* s.split(c) for a single character separator *)
Fixpoint split_chr (c : N) (s : pystr) : list pystr :=
  match s with
  | [] => [[]]
  | x :: t =>
      if N.eqb x c then [] :: split_chr c t
      else match split_chr c t with
           | h :: r => (x :: h) :: r
           | [] => [[x]]   (* not reached: split_chr never returns [] *)
           end
  end.

(* s.split(c, 1)[0] for a single character separator *)
Fixpoint before_chr (c : N) (s : pystr) : pystr :=
  match s with
  | [] => []
  | x :: t => if N.eqb x c then [] else x :: before_chr c t
  end.

(* s.replace(c, '') for a single character *)
Definition remove_chr (c : N) (s : pystr) : pystr :=
  List.filter (fun x => negb (N.eqb x c)) s.

(* s.replace(old, new) for a non-empty old: leftmost, non-overlapping *)
Fixpoint replace_aux (fuel : nat) (old new s : pystr) : pystr :=
  match fuel with
  | O => s
  | S f =>
      match s with
      | [] => []
      | x :: t =>
          if startswith old s then new ++ replace_aux f old new (skipn (List.length old) s)
          else x :: replace_aux f old new t
      end
  end.
Definition replace_str (old new s : pystr) : pystr := replace_aux (List.length s) old new s.

(* sep.join(l) *)
Fixpoint join_str (sep : pystr) (l : list pystr) : pystr :=
  match l with
  | [] => []
  | [x] => x
  | x :: t => x ++ sep ++ join_str sep t
  end.

(* s[i:j] with 0 <= i, j *)
Definition slice_nat {A} (i j : nat) (s : list A) : list A := firstn (j - i) (skipn i s).

(* Normalisation of one slice bound: negative counts from the end, then clamp to 0..len *)
Definition norm_bound (len : nat) (i : Z) : nat :=
  if (i <? 0)%Z then Z.to_nat (Z.max 0 (Z.of_nat len + i))
  else Nat.min (Z.to_nat i) len.

(* s[i:j] for arbitrary integers *)
Definition py_slice {A} (i j : Z) (s : list A) : list A :=
  slice_nat (norm_bound (List.length s) i) (norm_bound (List.length s) j) s.

(* s[:-1] *)
Definition drop_last {A} (s : list A) : list A := removelast s.

(* s[-1] *)
Definition last_chr {A} (s : list A) : res A :=
  match rev s with [] => Err IndexError | x :: _ => Ok x end.

(** * Character classes *)

Definition in_ranges (rs : list (N * N)) (c : N) : bool :=
  existsb (fun r => (fst r <=? c)%N && (c <=? snd r)%N) rs.

(* chr(c).isdigit(); the ASCII range is tested first only for speed *)
Definition isdigit_chr (c : N) : bool :=
  if (c <? 128)%N then ((48 <=? c) && (c <=? 57))%N else in_ranges isdigit_ranges c.

Definition isspace_chr (c : N) : bool := in_ranges isspace_ranges c.

(* s.isdigit(): non-empty and all digits *)
Definition str_isdigit (s : pystr) : bool :=
  match s with [] => false | _ => forallb isdigit_chr s end.

(* s.isspace() *)
Definition str_isspace (s : pystr) : bool :=
  match s with [] => false | _ => forallb isspace_chr s end.

(* the value int() gives to a digit character, if it accepts it *)
Definition decimal_value (c : N) : option N :=
  if (c <? 128)%N then
    (if (48 <=? c)%N && (c <=? 57)%N then Some (c - 48)%N else None)
  else
    match List.find (fun s => (s <=? c)%N && (c <=? s + 9)%N) decimal_starts with
    | Some s => Some (c - s)%N
    | None => None
    end.

Definition case_map (multi : list (N * list N)) (runs : list (N * N * N * Z)) (c : N) : list N :=
  match List.find (fun e => N.eqb (fst e) c) multi with
  | Some (_, l) => l
  | None =>
      match List.find (fun '(lo, hi, step, _) =>
               (lo <=? c)%N && (c <=? hi)%N && ((c - lo) mod step =? 0)%N) runs with
      | Some (_, _, _, d) => [Z.to_N (Z.of_N c + d)]
      | None => [c]
      end
  end.

(* chr(c).lower() / chr(c).upper() *)
Definition lower_chr (c : N) : list N := case_map lower_multi lower_runs c.
Definition upper_chr (c : N) : list N := case_map upper_multi upper_runs c.

(* s.lower(), s.upper().  Simplification: the context rule that lowers a word-final capital
   sigma to U+03C2 instead of U+03C3 is left out. *)
Definition str_lower (s : pystr) : pystr := flat_map lower_chr s.
Definition str_upper (s : pystr) : pystr := flat_map upper_chr s.

(* s.strip() *)
Fixpoint drop_while {A} (f : A -> bool) (s : list A) : list A :=
  match s with
  | [] => []
  | x :: t => if f x then drop_while f t else s
  end.
Definition str_lstrip (s : pystr) : pystr := drop_while isspace_chr s.
Definition str_strip (s : pystr) : pystr := rev (drop_while isspace_chr (rev (str_lstrip s))).

Fixpoint take_while {A} (f : A -> bool) (s : list A) : list A :=
  match s with
  | [] => []
  | x :: t => if f x then x :: take_while f t else []
  end.

(** * Integers and text *)

(* decimal digits of n, most significant first *)
Fixpoint dec_aux (fuel : nat) (n : N) (acc : pystr) : pystr :=
  match fuel with
  | O => acc
  | S f =>
      let acc' := (48 + n mod 10)%N :: acc in
      if (n <? 10)%N then acc' else dec_aux f (n / 10)%N acc'
  end.
Definition dec_N (n : N) : pystr := dec_aux (S (N.to_nat (N.log2 n))) n [].

(* str(i) *)
Definition str_of_int (i : Z) : pystr :=
  if (i <? 0)%Z then 45%N :: dec_N (Z.abs_N i) else dec_N (Z.to_N i).

(* whitespace skipped by int(): ASCII blanks, and non-ASCII white space *)
Definition int_space (c : N) : bool :=
  ((9 <=? c) && (c <=? 13))%N || (c =? 32)%N || ((127 <? c)%N && isspace_chr c).

(* digits with single underscores between them; [prev] says the last character was a digit *)
Fixpoint int_digits (prev : bool) (acc : N) (s : pystr) : res N :=
  match s with
  | [] => if prev then Ok acc else Err ValueError
  | c :: t =>
      if (c =? 95)%N then
        if prev then int_digits false acc t else Err ValueError
      else
        match decimal_value c with
        | Some d => int_digits true (acc * 10 + d)%N t
        | None => Err ValueError
        end
  end.

(* int(s) *)
Definition py_int (s : pystr) : res Z :=
  let s1 := drop_while int_space s in
  let s2 := rev (drop_while int_space (rev s1)) in
  match s2 with
  | [] => Err ValueError
  | c :: t =>
      if (c =? 45)%N then n <- int_digits false 0 t ;; Ok (- Z.of_N n)%Z
      else if (c =? 43)%N then n <- int_digits false 0 t ;; Ok (Z.of_N n)
      else n <- int_digits false 0 s2 ;; Ok (Z.of_N n)
  end.
