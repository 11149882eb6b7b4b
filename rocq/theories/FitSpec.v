(* What the parsers return is what the later steps need (C73). *)
From Coq Require Import Floats.SpecFloat.
From Verif Require Import PyBase LineModel DateModel RefModel TreeModel TreeSpec SemModel SemSpec D2oHunSpec.
Local Open Scope Z_scope.

(* An act as it is before semantic parsing: made by the constructors, with paragraphs as the children of all articles (also of
   those in amendments), no semantic data anywhere, a text or children in every element, and children in every amendment *)
Record fresh_act (a : act) : Prop := mk_fresh {
  fr_built : built_act a;
  fr_paragraphs : forall x, in_act a (ChArticle x) -> paragraphs_only x;
  fr_meta : forall s, in_act a (ChSae s) -> s_meta s = NO_META;
  fr_complete : forall s, in_act a (ChSae s) -> complete s;
  fr_amendments : forall s, in_act a (ChSae s) -> s_kind s = KBlockAmendmentContainer -> s_children s <> None
}.

(* an analyzer that says real dates only *)
Definition real_dates (an : analyzer) : Prop :=
  forall text a s d, an text = Some a -> In s (an_semantic a) -> In d (dates_of s) -> real_date d.

(* a line with finite numbers as its positions, and less than 2^295 parts; parts of such lines can begin far away, but somewhere *)
Definition finite (x : pyfloat) : Prop := match x with S754_zero _ | S754_finite _ _ _ => True | _ => False end.
Definition measured (l : line) : Prop :=
  finite (l_margin_right l) /\ Forall (fun p => finite (p_dx p)) (l_parts l) /\ 20 * Z.of_nat (length (l_parts l)) < 2 ^ 300.

(* a structural element of an act, or of an amendment in it *)
Definition struct_in_act (a : act) (e : structural_element) : Prop := In (AStruct e) (act_children a) \/ in_act a (ChStruct e).
