(* Independent specification of the ordering and numbering of identifiers. *)
From Verif Require Import PyBase NumModel NumSpec IdModel.
Local Open Scope Z_scope.

(** Digits.  A character that str.isdigit accepts is [good] if int() gives it a value. *)
Definition good_digit (c : N) : Prop := exists d, decimal_value c = Some d.
Definition decimal_id (s : pystr) : Prop :=
  Forall (fun c => isdigit_chr c = true -> good_digit c) s.

Definition all_digits (d : pystr) : Prop := Forall (fun c => isdigit_chr c = true) d.
Definition no_digits (t : pystr) : Prop := Forall (fun c => isdigit_chr c = false) t.

(* the number written by a string of digits *)
Definition number_of (d : pystr) : Z :=
  fold_left (fun a c => match decimal_value c with Some v => a * 10 + Z.of_N v | None => a end) d 0.

(** An identifier is read as text, number, text, number, ...: a (possibly empty) text, then a
    maximal run of digits, and so on. *)
Inductive reads_as : pystr -> list idpart -> Prop :=
| reads_nothing : reads_as [] []
| reads_text t : t <> [] -> no_digits t -> reads_as t [PStr t]
| reads_number t d rest ps :
    no_digits t -> all_digits d -> d <> [] ->
    match rest with [] => True | c :: _ => isdigit_chr c = false end ->
    reads_as rest ps ->
    reads_as (t ++ d ++ rest) (PStr t :: PInt (number_of d) :: ps).

(** Readings are compared position by position: numbers as numbers, texts alphabetically,
    and a reading that ends first comes first. *)
Inductive before : list idpart -> list idpart -> Prop :=
| before_end x b : before [] (x :: b)
| before_text s t a b : str_ltb s t = true -> before (PStr s :: a) (PStr t :: b)
| before_number n m a b : n < m -> before (PInt n :: a) (PInt m :: b)
| before_later x a b : before a b -> before (x :: a) (x :: b).

(** Numeric identifiers: "12", "12a" or "12/a". *)
Definition numeric_id (slash : bool) (n : N) (letter : option N) : pystr :=
  dec_N n ++ match letter with
             | None => []
             | Some c => (if slash then [47%N] else []) ++ [c]
             end.
(* a letter: any character that is neither a digit nor the slash itself *)
Definition plain_letter (l : option N) : Prop :=
  match l with None => True | Some c => isdigit_chr c = false /\ c <> 47%N end.

(* what may come after (n, l) in a numbered list *)
Inductive numeric_successor : N -> option N -> N -> option N -> Prop :=
| succ_number n l : numeric_successor n l (n + 1)%N None
| succ_first_letter n c : c = 97%N \/ c = 65%N -> numeric_successor n None n (Some c)
| succ_letter n c : numeric_successor n (Some c) n (Some (c + 1)%N).

(** Article identifiers: "12", "12/A", "3:12" or "3:12/A", the letter possibly a digraph. *)
Definition article_id (book : option N) (n : N) (letter : option pystr) : pystr :=
  match book with None => [] | Some b => dec_N b ++ [58%N] end ++
  dec_N n ++ match letter with None => [] | Some l => 47%N :: l end.
Definition article_letter (l : option pystr) : Prop :=
  match l with
  | None => True
  | Some l => In l list_alphabet_upper
  end.

Inductive article_successor :
  option N -> N -> option pystr -> option N -> N -> option pystr -> Prop :=
| art_next_book b n l : article_successor (Some b) n l (Some (b + 1)%N) 1 None
| art_next_number b n l : article_successor b n l b (n + 1)%N None
| art_first_letter b n : article_successor b n None b n (Some (u8 "A"))
| art_next_letter b n x y : follows_in list_alphabet_upper x y ->
    article_successor b n (Some x) b n (Some y).

(** [a] is not after [b] in identifier order *)
Definition not_after (a b : pystr) : Prop :=
  exists pa pb, reads_as a pa /\ reads_as b pb /\ ~ before pb pa.

(* [picks P l r]: r is l with exactly the elements that satisfy P kept *)
Inductive picks {E} (P : E -> Prop) : list E -> list E -> Prop :=
| picks_nil : picks P [] []
| picks_keep x l r : P x -> picks P l r -> picks P (x :: l) (x :: r)
| picks_drop x l r : ~ P x -> picks P l r -> picks P (x :: l) r.
