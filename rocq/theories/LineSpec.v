(* Independent specification of lines: positions, quotes, joined texts, nested lists. *)
From Verif Require Import PyBase IdModel LineModel.
Local Open Scope Z_scope.

(** Absolute positions: the part's offsets added up from the left, starting at 0.0. *)
Fixpoint running (x : pyfloat) (ps : list part) : list pyfloat :=
  match ps with
  | [] => []
  | p :: t => f_add x (p_dx p) :: running (f_add x (p_dx p)) t
  end.
Definition positions (l : line) : list pyfloat := running f_zero (l_parts l).

(** Python's s[start:end] with negative bounds counted from the end *)
Definition from_end (n b : Z) : Z := if b <? 0 then n + b else b.
Definition substring (s : pystr) (a b : Z) : pystr :=
  firstn (Z.to_nat b - Z.to_nat a) (skipn (Z.to_nat a) s).

(** Quotes: U+201E and U+201C open, U+201D closes. *)
Definition opening (s : pystr) : Z :=
  Z.of_nat (count_occ N.eq_dec s 8222%N) + Z.of_nat (count_occ N.eq_dec s 8220%N).
Definition closing (s : pystr) : Z := Z.of_nat (count_occ N.eq_dec s 8221%N).
Definition whole_text (ls : list line) : pystr := flat_map l_content ls.
(* how many quotes are open after these lines *)
Definition open_after (ls : list line) : Z := opening (whole_text ls) - closing (whole_text ls).

(** The text made of several lines: a space goes between two texts unless the text so far is
    empty or ends with a hyphen. *)
Inductive joined : list pystr -> pystr -> Prop :=
| joined_none : joined [] []
| joined_first ls t s : joined ls t -> t = [] -> joined (ls ++ [s]) s
| joined_hyphen ls t s : joined ls (t ++ [45%N]) -> joined (ls ++ [s]) ((t ++ [45%N]) ++ s)
| joined_space ls t c s : joined ls (t ++ [c]) -> c <> 45%N ->
    joined (ls ++ [s]) ((t ++ [c]) ++ 32%N :: s).

(** The leaves of a nested list *)
Fixpoint leaves {A} (n : nested A) : list A :=
  match n with
  | Leaf a => [a]
  | Node l => flat_map leaves l
  end.

(** Two floats are the same number if they are identical or are the two zeros. *)
Inductive same_float : pyfloat -> pyfloat -> Prop :=
| same_refl x : same_float x x
| same_zeros s t : same_float (SpecFloat.S754_zero s) (SpecFloat.S754_zero t).
