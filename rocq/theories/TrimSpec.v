(* What the ends of wrapped lines are to be (C50). *)
From Verif Require Import PyBase IdModel LineModel TxtModel.

Definition spaces_only (c : pystr) : Prop := c <> [] /\ Forall (fun x => isspace_chr x = true) c.
Definition wordlike (c : pystr) : Prop := c <> [] /\ Forall (fun x => isspace_chr x = false) c.
(* words, with white space between some of them *)
Fixpoint neat (l : list pystr) : Prop :=
  match l with
  | [] => True
  | c :: t => (spaces_only c \/ wordlike c) /\ (spaces_only c -> match t with [] => True | d :: _ => wordlike d end) /\ neat t
  end.
Definition ends_blank (l : pystr) : Prop := exists p c, l = p ++ [c] /\ isspace_chr c = true.
