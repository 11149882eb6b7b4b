(* What the fixup editor should do with an edited text (C62). *)
From Verif Require Import PyBase LineModel LineSpec FixupModel FixupSpec EditModel.
Local Open Scope Z_scope.

(* [edited_as body texts body']: lines whose texts stay are kept, the others have the new texts in the place of the old ones *)
Inductive edited_as : list line -> list pystr -> list line -> Prop :=
| ea_done : edited_as [] [] []
| ea_same l ls ts ls' : edited_as ls ts ls' -> edited_as (l :: ls) (l_content l :: ts) (l :: ls')
| ea_changed l t l' ls ts ls' : l_content l <> t -> edited (l_content l) t l l' -> edited_as ls ts ls' -> edited_as (l :: ls) (t :: ts) (l' :: ls').
(* no line is emptied *)
Definition none_emptied (original new : list pystr) : Prop := forall o, In (o, []) (combine original new) -> o = [].
(* the last line stays, or there is no other line with the same text *)
Definition last_line_fine (original new : list pystr) : Prop :=
  forall a o b n, original = a ++ [o] -> new = b ++ [n] -> o = n \/ ~ In o a.
(* the text of each changed line is there once, and is nowhere afterwards *)
Definition clear_edit (original new : list pystr) : Prop :=
  forall o n, In (o, n) (combine original new) -> o <> n -> n <> [] /\ ~ In o new /\ exists a b, original = a ++ o :: b /\ ~ In o a /\ ~ In o b.

(* the quotes that are open at the start of a line *)
Fixpoint level_at (q : Z) (body : list line) (n : nat) : option Z :=
  match body, n with
  | [], _ => None
  | l :: t, O => Some q
  | l :: t, S n => level_at (q + quote_level_diff (l_content l)) t n
  end.
(* a text that may stand in a line of a file *)
Definition on_one_line (s : pystr) : Prop := ~ In 10%N s /\ ~ In 13%N s.
(* the replacements for an act *)
Definition kept (all : replacements) (identifier : pystr) : list replacement :=
  concat (map snd (filter (fun e => str_eqb (fst e) identifier) all)).
