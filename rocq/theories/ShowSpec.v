(* When an act has a plain text (C81). *)
From Verif Require Import PyBase IdModel LineModel DateModel RefModel TreeModel TreeSpec StructModel GazModel HtmlModel HtmlSpec TxtModel TxtSpec SemModel SemSpec D2oHunSpec FitSpec.
Local Open Scope Z_scope.

(* the columns that the label of an element takes, which its text and its children stand after; amendments are only moved *)
Definition label_width (s : sae) : nat :=
  match s_kind s with KBlockAmendmentContainer => 5%nat | k => Nat.max 5 (List.length (txt_label k (s_identifier s))) end.
Definition article_width (a : article) : nat := Nat.max 10 (List.length (a_identifier a) + 3).
(* an element with a text of its own: nothing else of it is printed *)
Definition has_text (s : sae) : Prop := s_kind s <> KBlockAmendmentContainer /\ nonempty (s_text s).
(* [prints c n d]: to print c is to print d, n columns further to the right *)
Inductive prints : child -> nat -> child -> Prop :=
| pr_self c : prints c 0 c
| pr_child s cs c n d : ~ has_text s -> s_children s = Some cs -> In c cs -> prints c n d -> prints (ChSae s) (label_width s + n) d
| pr_paragraph a p n d : In p (a_paragraphs a) -> prints (ChSae p) n d -> prints (ChArticle a) (article_width a + n) d.

(* the texts of an element itself stand after its label; those around amendments do not *)
Definition text_column (s : sae) : nat := match s_kind s with KBlockAmendmentContainer => 0%nat | _ => label_width s end.
(* quoted lines: there is one that is not empty, and all begin at some fifth of the distance from the first column *)
Definition placed (base : pyfloat) (l : line) : Prop := exists n, f_int (f_mul (f_sub (l_indent l) base) f_fifth) = Ok n.
Definition quote_fits (ls : list line) : Prop :=
  exists base, f_min (map l_indent (List.filter not_empty_line ls)) = Ok base /\ forall l, In l ls -> placed base l.
(* [fits width n d]: there is room for the texts of d itself after n columns *)
Definition fits (width : Z) (n : nat) (d : child) : Prop :=
  match d with
  | ChSae s =>
      (~ has_text s -> s_children s <> None) /\
      (has_text s \/ nonempty (s_intro s) \/ nonempty (s_wrap_up s) -> Z.of_nat (n + text_column s) < width)
  | ChArticle a => nonempty (a_title a) -> Z.of_nat (n + article_width a) < width
  | ChQuoted ls => quote_fits ls
  | ChStruct e => Z.of_nat n < width /\ exists f, formatted_identifier e = Ok f
  end.
(* all that is printed of an act fits *)
Definition act_fits (width : Z) (a : act) : Prop := forall c n d, In c (act_children a) -> prints (act_child_child c) n d -> fits width n d.

(* no empty text stands for an element *)
Definition no_empty_text (s : sae) : Prop := s_text s = Some [] -> s_children s <> None.
(* the same without what is sure for acts that are read: no text is empty, the quoted lines that are left can be placed, and
   no text begins beyond the right margin *)
Definition roomy (width : Z) (a : act) : Prop :=
  forall c n d, In c (act_children a) -> prints (act_child_child c) n d ->
  match d with
  | ChSae s => no_empty_text s /\ (has_text s \/ nonempty (s_intro s) \/ nonempty (s_wrap_up s) -> Z.of_nat (n + text_column s) < width)
  | ChArticle x => nonempty (a_title x) -> Z.of_nat (n + article_width x) < width
  | ChQuoted ls => quote_fits ls
  | ChStruct e => Z.of_nat n < width
  end.

(* what is left of the conditions of C48 for acts that are read *)
Definition viewable (a : act) : Prop :=
  (forall s, in_act a (ChSae s) -> no_empty_text s) /\
  (forall ls, in_act a (ChQuoted ls) -> (exists l, In l ls /\ not_empty_line l = true) /\ forall l m, In l ls -> In m ls -> at_distance l m).
(* An act as the parsers make it: every element has a text or children, every amendment has children, and the identifiers of
   structural elements are numbers that can be written. *)
Record sturdy (a : act) : Prop := mk_sturdy {
  sd_complete : forall s, in_act a (ChSae s) -> complete s;
  sd_amendments : forall s, in_act a (ChSae s) -> s_kind s = KBlockAmendmentContainer -> s_children s <> None;
  sd_structs : forall e, struct_in_act a e -> exists f, formatted_identifier e = Ok f
}.
