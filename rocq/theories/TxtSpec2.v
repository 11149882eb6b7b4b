(* Where texts are broken into lines (C50). *)
From Coq Require Import Lia.
From Verif Require Import PyBase TxtModel.

(* a piece of a text that is not broken: it has no space and is not longer than a line *)
Definition piece (width : nat) (c : pystr) : Prop := c <> [] /\ Forall (fun x => isspace_chr x = false) c /\ (List.length c <= width)%nat.
Definition space : pystr := [32%N].
(* words with one space between them, some of which are made of several pieces *)
Inductive pieces (width : nat) : list pystr -> Prop :=
| ps_last c : piece width c -> pieces width [c]
| ps_space c t : piece width c -> pieces width t -> pieces width (c :: space :: t)
| ps_joined c t : piece width c -> pieces width t -> pieces width (c :: t).
Definition first_piece (l : list pystr) : pystr := hd [] l.
(* [broken width l lines]: the lines are filled with the pieces one after the other; a line ends where the next piece does not
   fit, instead of a space or between two pieces of a word *)
Inductive broken (width : nat) : list pystr -> list pystr -> Prop :=
| br_last l : pieces width l -> (List.length (concat l) <= width)%nat -> broken width l [concat l]
| br_space l d lines : pieces width l -> (List.length (concat l) <= width)%nat -> (width < List.length (concat l) + 1 + List.length (first_piece d))%nat ->
    broken width d lines -> broken width (l ++ space :: d) (concat l :: lines)
| br_joined l d lines : pieces width l -> (List.length (concat l) <= width)%nat -> (width < List.length (concat l) + List.length (first_piece d))%nat ->
    broken width d lines -> broken width (l ++ d) (concat l :: lines).
(* the lines are the text again if a space is put between some of them *)
Inductive rejoined : list pystr -> pystr -> Prop :=
| rj_last l : rejoined [l] l
| rj_space l lines s : rejoined lines s -> rejoined (l :: lines) (l ++ space ++ s)
| rj_joined l lines s : rejoined lines s -> rejoined (l :: lines) (l ++ s).
