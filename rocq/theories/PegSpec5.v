(* Independent specification of what is missed by not running the grammar on a text, and of what is
   stored about the sentences of an act. *)
From Verif Require Import PyBase NumModel IdModel DateModel RefModel RefSpec TreeModel TreeSpec SemModel SemSpec GramModel GramSpec PegSpec PegSpec2 PegSpec3 PegSpec4 CiteSpec.
Local Open Scope Z_scope.

(** * Texts on which the grammar is not run *)

Definition key_words : list pystr := [u8 ")"; u8 "§"; u8 "törvén"; u8 "hely"; u8 "hatály"; u8 "Hatály"].
(* a text without any of these *)
Definition dull (text : pystr) : Prop := forall w, In w key_words -> ~ has text w.

(* of an act, or of numbered points: no article, no paragraph, no point with a letter *)
Definition starts_with_digit (i : pystr) : Prop := exists c t, i = c :: t /\ (48 <= c <= 57)%N.
Definition minor_reference (r : reference) : Prop :=
  r_article r = RNone /\ r_paragraph r = RNone /\
  forall i, In i (ids_of (r_point r) ++ ids_of (r_subpoint r)) -> starts_with_digit i.
(* an insertion of numbered points, or of something larger than an article that is not placed next to one *)
Definition minor_semantic (s : semantic_data) : Prop :=
  match s with
  | BlockAmendment (ARef r) true => minor_reference r
  | BlockAmendment (ASRef r) true => sr_special r = None
  | _ => False
  end.

(** * Sentences *)

(* a sentence that is written in one of the usual ways, and what it says *)
Inductive sentence_written (text : pystr) : list outgoing_reference -> list semantic_data -> list act_id_abbreviation -> Prop :=
| sen_told refs abbrs : cited Nothing 0 text refs abbrs -> ordinary text -> visible text -> sentence_written text refs [] abbrs
| sen_block refs semantic abbrs : block_written text refs semantic abbrs -> sentence_written text refs [semantic] abbrs
| sen_lost refs abbrs : lost_written text refs abbrs -> sentence_written text refs [] abbrs
| sen_change refs semantics abbrs : change_written text refs semantics abbrs -> sentence_written text refs semantics abbrs
| sen_enforcement refs semantics : enforcement_written text refs semantics -> Forall possible semantics -> sentence_written text refs semantics [].
