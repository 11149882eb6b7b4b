(* Acts that can be written and read back: what the constructors of their parts do not check. *)
From Coq Require Import Floats.SpecFloat.
From Verif Require Import PyBase LineModel DateModel RefModel TreeModel TreeSpec.
Local Open Scope Z_scope.

(* an article of the act, or something inside one *)
Definition in_act (a : act) (c : child) : Prop :=
  exists x, In (AArticle x) (act_children a) /\ (c = ChArticle x \/ inside_article c x).
Definition line_in_act (a : act) (l : line) : Prop := exists ls, in_act a (ChQuoted ls) /\ In l ls.

(* a Date object: its __init__ accepts it *)
Definition real_date (d : date) : Prop := Date_ (d_year d) (d_month d) (d_day d) = Ok d.
Definition dates_of (s : semantic_data) : list date :=
  match s with
  | EnforcementDate _ d r =>
      (match d with EDate d => [d] | _ => [] end) ++ (match r with Some d => [d] | None => [] end)
  | _ => []
  end.

(* Made by the constructors, with paragraphs as the children of all articles (also of those in
   amendments), and with Date objects as dates *)
Record writable (a : act) : Prop := mk_writable {
  wr_built : built_act a;
  wr_paragraphs : forall x, in_act a (ChArticle x) -> paragraphs_only x;
  wr_published : real_date (act_publication_date a);
  wr_dates : forall s data d e, in_act a (ChSae s) -> m_semantic (s_meta s) = Some data -> In d data ->
    In e (dates_of d) -> real_date e
}.

Definition numbers (l : line) : Prop :=
  l_margin_right l <> S754_nan /\ Forall (fun p => p_dx p <> S754_nan) (l_parts l).
(* the right margin is not 0, the default *)
Definition with_margin (l : line) : Prop := forall s, l_margin_right l <> S754_zero s.

(* only parts can be special: the other classes do not have the field *)
Definition only_parts_special (e : structural_element) : Prop := se_kind e = KPart \/ se_special e = false.
Definition real_specials (a : act) : Prop :=
  (forall e, In (AStruct e) (act_children a) -> only_parts_special e) /\
  (forall e, in_act a (ChStruct e) -> only_parts_special e).
