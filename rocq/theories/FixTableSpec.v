(* Independent specification of what a fixup entry does to the texts of the lines of an act. *)
From Verif Require Import PyBase LineModel LineSpec NumSpec FixupSpec FixupEntries.

(* the first of a bracketed title and an article: the title goes into the header *)
Inductive titles_swapped : list pystr -> list pystr -> Prop :=
| swapped_none : titles_swapped [] []
| swapped_last p : titles_swapped [p] [p]
| swapped_pair p x title header rest t t' :
    bracketed p title -> article_start x header rest -> titles_swapped t t' ->
    titles_swapped (p :: x :: t) ((header ++ u8 "[" ++ title ++ u8 "]") :: rest :: t')
| swapped_not p x t t' :
    (forall title header rest, bracketed p title -> ~ article_start x header rest) ->
    titles_swapped (x :: t) t' -> titles_swapped (p :: x :: t) (p :: t').

(* an empty replacement removes the line *)
Definition new_text (replacement : pystr) : list pystr := match replacement with [] => [] | _ => [replacement] end.

Definition text_step (e : fixup_entry) (texts texts' : list pystr) : Prop :=
  match e with
  | FReplace needle replacement prev => exists before after,
      texts = before ++ needle :: after /\ texts' = before ++ new_text replacement ++ after /\
      only_meant needle prev (new_text replacement) before after
  | FEmptyAfter needle => exists before after,
      texts = before ++ needle :: after /\ texts' = before ++ needle :: [] :: after /\
      ~ In needle before /\ ~ In needle after
  | FDelete needle => exists before after,
      texts = before ++ needle :: after /\ texts' = before ++ after /\
      ~ In needle before /\ ~ In needle after
  | FTitles => titles_swapped texts texts'
  end.
(* one after the other *)
Inductive text_steps : list fixup_entry -> list pystr -> list pystr -> Prop :=
| steps_done t : text_steps [] t t
| steps_one e es t t' t'' : text_step e t t' -> text_steps es t' t'' -> text_steps (e :: es) t t''.

(** Headings at which the parser cuts a line: an opening quote, an article's number, a paragraph's number *)
Definition article_number (a : pystr) : Prop :=
  exists x, a = x ++ u8 "§ " /\ Forall (fun c => In c (u8 "0123456789:/ABCDEFGHIJKLMNOPQRSTUVWXYZ. ")) x.
Definition paragraph_number (p : pystr) : Prop :=
  exists x, p = u8 "(" ++ x ++ u8 ") " /\ Forall (fun c => In c (u8 "0123456789abcdefghijklmnopqrstuvwxyz")) x.
Definition line_heading (h : pystr) : Prop :=
  exists q a p, h = q ++ a ++ p /\ (q = [] \/ q = u8 "„") /\
    (a = [] \/ article_number a) /\ (p = [] \/ paragraph_number p).
(* the parts of the line can be separated behind the text *)
Definition can_be_cut (l : line) (h : pystr) : Prop :=
  exists a b, map p_content (l_parts l) = a ++ b /\ concat a = h.

(* the identifiers of acts: a year and a Roman number *)
Definition act_identifier (id : pystr) : Prop :=
  exists year n, id = year ++ u8 ". évi " ++ roman n ++ u8 ". törvény" /\
    List.length year = 4%nat /\ Forall (fun c => In c (u8 "0123456789")) year /\ (1 <= n)%Z.
