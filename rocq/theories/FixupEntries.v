(* The entries of the program's own table of fixups: what is registered, as data. *)
From Verif Require Import PyBase IdModel LineModel FixupModel.

(* the calls in text_fixups.py: replace_line_content, add_empty_line_after, delete_line, ptke_article_header_fixer *)
Inductive fixup_entry :=
| FReplace (needle replacement : pystr) (prev : option (list pystr))
| FEmptyAfter (needle : pystr)
| FDelete (needle : pystr)
| FTitles.
Definition fixup_of (e : fixup_entry) : fixup :=
  match e with
  | FReplace needle replacement prev => replace_line_content needle replacement prev
  | FEmptyAfter needle => add_empty_line_after needle
  | FDelete needle => delete_line needle
  | FTitles => ptke_article_header_fixer
  end.
