(* Model of IndentedLine and quote levels of hun_law/utils.py. *)
From Coq Require Import Floats.SpecFloat.
From Verif Require Import PyBase.
Local Open Scope Z_scope.

(** * Python floats: IEEE binary64 *)
Definition pyfloat := spec_float.
Definition prec64 := 53.
Definition emax64 := 1024.
Definition f_zero : pyfloat := S754_zero false.
Definition f_add (x y : pyfloat) : pyfloat := SFadd prec64 emax64 x y.
Definition f_sub (x y : pyfloat) : pyfloat := SFsub prec64 emax64 x y.
Definition f_mul (x y : pyfloat) : pyfloat := SFmul prec64 emax64 x y.
Definition f_ltb (x y : pyfloat) : bool := SFltb x y.
Definition f_eqb (x y : pyfloat) : bool := SFeqb x y.
(* float(i) for an integer i *)
Definition f_of_Z (i : Z) : pyfloat := binary_normalize prec64 emax64 i 0 false.
(* i * 2^e, for writing exact constants *)
Definition f_dyadic (i e : Z) : pyfloat := binary_normalize prec64 emax64 i e false.
(* bool(x): false only for the two zeros *)
Definition f_truthy (x : pyfloat) : bool :=
  match x with S754_zero _ => false | _ => true end.

(* utils.py:28-32 *)
Record part := mk_part { p_dx : pyfloat; p_content : pystr; p_bold : bool }.

(* utils.py:35-41: the stored fields; content, indent and bold are computed from them *)
Record line := mk_line { l_parts : list part; l_margin_right : pyfloat }.

(* utils.py:50-52 *)
Definition l_content (l : line) : pystr := flat_map p_content (l_parts l).

(* utils.py:54-58 *)
Definition l_indent (l : line) : pyfloat :=
  match l_parts l with [] => f_zero | p :: _ => p_dx p end.

(* utils.py:60-68 *)
Definition l_bold (l : line) : bool :=
  let sum_len := fold_left (fun a p => (a + List.length (p_content p))%nat) (l_parts l) O in
  let bold_len := fold_left (fun a p =>
      if p_bold p then (a + List.length (p_content p))%nat else a) (l_parts l) O in
  (sum_len <? bold_len * 2)%nat.

(* utils.py:144 *)
Definition EMPTY_LINE : line := mk_line [] f_zero.

(* attrs equality: all fields except margin_right (utils.py:37, eq=False); content, indent and
   bold are functions of the parts, so comparing the parts decides *)
Definition part_eqb (a b : part) : bool :=
  f_eqb (p_dx a) (p_dx b) && str_eqb (p_content a) (p_content b)
  && Bool.eqb (p_bold a) (p_bold b).
Definition line_eqb (a b : line) : bool := list_eqb part_eqb (l_parts a) (l_parts b).

(* line == EMPTY_LINE *)
Definition is_empty_line (l : line) : bool :=
  match l_parts l with [] => true | _ => false end.

(* utils.py:84-90: the skipping loop; returns skipped_x, skipped_len, skipped_parts_index *)
Fixpoint slice_skip (parts : list part) (start : Z) (x : pyfloat) (len : Z) (idx : nat)
  : pyfloat * Z * nat :=
  match parts with
  | [] => (x, len, idx)
  | p :: t =>
      if len <? start then
        slice_skip t start (f_add x (p_dx p)) (len + Z.of_nat (List.length (p_content p))) (S idx)
      else (x, len, idx)
  end.

(* utils.py:100-104: the including loop; returns included_len, included_parts_index *)
Fixpoint slice_include (parts : list part) (want : Z) (len : Z) (idx : nat) : Z * nat :=
  match parts with
  | [] => (len, idx)
  | p :: t =>
      if len <? want then
        slice_include t want (len + Z.of_nat (List.length (p_content p))) (S idx)
      else (len, idx)
  end.

(* utils.py:70-122.  [end_ = None] is the default argument. *)
Definition l_slice (l : line) (start0 : Z) (end0 : option Z) : res line :=
  let n := Z.of_nat (List.length (l_content l)) in
  let start := if start0 <? 0 then n + start0 else start0 in
  let end1 := match end0 with None => n | Some e => e end in
  let end_ := if end1 <? 0 then n + end1 else end1 in
  if (start =? 0) && (end_ =? n) then Ok l
  else if end_ <=? start then Ok EMPTY_LINE
  else
    let '(skipped_x, skipped_len, k) := slice_skip (l_parts l) start f_zero 0 O in
    match skipn k (l_parts l) with
    | [] => Ok EMPTY_LINE
    | first_part :: _ =>
        if negb (skipped_len =? start) then Err ValueError
        else
          let '(included_len, j) := slice_include (skipn k (l_parts l)) (end_ - start) 0 k in
          if negb (included_len =? end_ - start) then Err ValueError
          else
            let first' :=
              if f_truthy skipped_x then
                mk_part (f_add (p_dx first_part) skipped_x) (p_content first_part)
                        (p_bold first_part)
              else first_part in
            let margin :=
              f_add (l_margin_right l)
                    (f_of_Z (20 * (Z.of_nat (List.length (l_parts l)) - Z.of_nat j))) in
            Ok (mk_line (first' :: slice_nat (S k) j (l_parts l)) margin)
    end.

(* utils.py:134-140: one line's parts; x is the running position *)
Fixpoint from_multiple_parts (first : bool) (ps : list part) (x : pyfloat)
  : list part * pyfloat :=
  match ps with
  | [] => ([], x)
  | p :: t =>
      if first then
        let '(r, x') := from_multiple_parts false t (p_dx p) in
        (mk_part (f_sub (p_dx p) x) (p_content p) false :: r, x')
      else
        let '(r, x') := from_multiple_parts false t (f_add x (p_dx p)) in
        (p :: r, x')
  end.

Fixpoint from_multiple_loop (others : list line) (x : pyfloat) : list part :=
  match others with
  | [] => []
  | o :: t =>
      let '(ps, x') := from_multiple_parts true (l_parts o) x in
      ps ++ from_multiple_loop t x'
  end.

(* utils.py:124-141 *)
Definition l_from_multiple (others : list line) : line :=
  mk_line (from_multiple_loop others f_zero)
          (match rev others with [] => f_zero | o :: _ => l_margin_right o end).

(** * Quotes *)

(* utils.py:368-369; the characters are U+201E, U+201C and U+201D *)
Definition quote_level_diff (s : pystr) : Z :=
  Z.of_nat (count_chr 8222 s) + Z.of_nat (count_chr 8220 s) - Z.of_nat (count_chr 8221 s).

(* A generator: the values it yields, and the exception that ends it, if any. *)
Record gen (A : Type) := mk_gen { g_items : list A; g_end : option exn }.
Arguments mk_gen {A} _ _.
Arguments g_items {A} _.
Arguments g_end {A} _.

(* utils.py:372-381 *)
Fixpoint quote_level_loop (throw : bool) (q : Z) (lines : list line) : gen (Z * line) :=
  match lines with
  | [] => mk_gen [] (if throw && negb (q =? 0) then Some ValueError else None)
  | l :: t =>
      let q' := q + quote_level_diff (l_content l) in
      if throw && (q' <? 0) then mk_gen [(q, l)] (Some ValueError)
      else let g := quote_level_loop throw q' t in
           mk_gen ((q, l) :: g_items g) (g_end g)
  end.
Definition iterate_with_quote_level (throw : bool) (lines : list line) : gen (Z * line) :=
  quote_level_loop throw 0 lines.
