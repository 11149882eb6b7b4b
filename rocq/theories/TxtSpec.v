(* What the plain text of an act is to contain (C50). *)
From Verif Require Import PyBase IdModel LineModel DateModel RefModel TreeModel TreeSpec StructModel GazModel HtmlModel HtmlSpec TxtModel.

(* re.split by an expression that is one group gives all of the text *)
Definition splits (w : wrapper) : Prop := forall s, concat (w_split w s) = s.
Definition nonblank (s : pystr) : Prop := no_space s <> [].
Definition nonempty (s : option pystr) : Prop := opt_string s <> [].

(* strings of which each is somewhere after the end of the one before *)
Fixpoint in_order (strs : list pystr) (s : pystr) : Prop :=
  match strs with [] => True | x :: t => exists a b, s = a ++ x ++ b /\ in_order t b end.

(** * All strings, with labels *)

Definition txt_label (k : sae_kind) (i : option pystr) : pystr := match i with None | Some [] => [] | _ => label k i end.
Fixpoint sae_txt (s : sae) : list pystr :=
  match s with
  | mk_sae kind identifier text intro children wrap_up meta =>
      let inside := match children with None => [] | Some cs => flat_map child_txt cs end in
      match kind with
      | KBlockAmendmentContainer => in_parentheses intro ++ [u8 "„"] ++ inside ++ [u8 "”"] ++ in_parentheses wrap_up
      | _ =>
          txt_label kind identifier ::
          match opt_true text with Some t => [t] | None => [opt_string intro] ++ inside ++ [opt_string wrap_up] end
      end
  end
with child_txt (c : child) : list pystr :=
  match c with
  | ChSae s => sae_txt s
  | ChArticle a => article_txt a
  | ChQuoted ls => quoted_strings ls
  | ChStruct e => struct_strings e
  end
with article_txt (a : article) : list pystr :=
  match a with
  | mk_article identifier title paragraphs =>
      [identifier; u8 ". §"] ++ match title with None | Some [] => [] | Some t => [u8 "["; t; u8 "]"] end ++ flat_map sae_txt paragraphs
  end.
Definition act_child_txt (c : act_child) : list pystr := match c with AStruct e => struct_strings e | AArticle a => article_txt a end.
Definition act_txt (a : act) : list pystr :=
  [u8 "===="; act_identifier a; u8 "-"; act_subject a; u8 "====="; act_preamble a] ++ flat_map act_child_txt (act_children a).

(** * The same without labels *)

Fixpoint sae_texts (s : sae) : list pystr :=
  match s with
  | mk_sae kind identifier text intro children wrap_up meta =>
      let inside := match children with None => [] | Some cs => flat_map child_texts cs end in
      match kind with
      | KBlockAmendmentContainer => [opt_string intro] ++ [u8 "„"] ++ inside ++ [u8 "”"] ++ [opt_string wrap_up]
      | _ => match opt_true text with Some t => [t] | None => [opt_string intro] ++ inside ++ [opt_string wrap_up] end
      end
  end
with child_texts (c : child) : list pystr :=
  match c with
  | ChSae s => sae_texts s
  | ChArticle a => article_texts a
  | ChQuoted ls => quoted_strings ls
  | ChStruct e => struct_strings e
  end
with article_texts (a : article) : list pystr :=
  match a with mk_article identifier title paragraphs => [opt_string title] ++ flat_map sae_texts paragraphs end.
Definition act_child_texts (c : act_child) : list pystr := match c with AStruct e => struct_strings e | AArticle a => article_texts a end.
Definition act_texts (a : act) : list pystr :=
  [act_identifier a; act_subject a; act_preamble a] ++ flat_map act_child_texts (act_children a).

(** * Where labels are printed once *)

(* Every element has a text to print its label with: its own, an introduction, or the text of its
   first child; but not an amendment as the first. *)
Definition starts_well (cs : list child) : Prop :=
  match cs with [] => False | ChSae s :: _ => s_kind s <> KBlockAmendmentContainer | ChStruct _ :: _ => False | _ => True end.
Fixpoint speaks (s : sae) : Prop :=
  match s with
  | mk_sae kind identifier text intro children wrap_up meta =>
      let inside := match children with None => True | Some cs => fold_right (fun c P => speaks_child c /\ P) True cs end in
      match kind with
      | KBlockAmendmentContainer => inside
      | _ =>
          match opt_true text with
          | Some t => nonblank t
          | None =>
              match opt_true intro with
              | Some t => nonblank t
              | None => match children with None => False | Some cs => starts_well cs end
              end /\ inside
          end
      end
  end
with speaks_child (c : child) : Prop :=
  match c with
  | ChSae s => speaks s
  | ChArticle a => speaks_article a
  | _ => True
  end
with speaks_article (a : article) : Prop :=
  match a with
  | mk_article identifier title paragraphs =>
      (nonempty title \/ match paragraphs with [] => False | p :: _ => s_kind p <> KBlockAmendmentContainer end) /\
      fold_right (fun p P => speaks p /\ P) True paragraphs
  end.
Definition speaks_act (a : act) : Prop := forall x, In (AArticle x) (act_children a) -> speaks_article x.
