(* Independent specification of the fixups: which line is meant, what the new lines are. *)
From Verif Require Import PyBase LineModel LineSpec.

(** Text line number |before| is the needle, and the lines before it end as required. *)
Definition meant (needle : pystr) (prev : option (list pystr)) (before : list pystr) (x : pystr) : Prop :=
  x = needle /\
  match prev with None => True | Some ps => exists a, before = a ++ ps end.

(* The one meant line splits the texts; lines after it are judged with the new text in its place. *)
Definition only_meant (needle : pystr) (prev : option (list pystr)) (new before after : list pystr) : Prop :=
  meant needle prev before needle /\
  (forall a x b, before = a ++ x :: b -> ~ meant needle prev a x) /\
  (forall a x b, after = a ++ x :: b -> ~ meant needle prev (before ++ new ++ a) x).

(** One-character parts *)
Definition one_char_parts (l : line) : Prop := Forall (fun p => List.length (p_content p) = 1%nat) (l_parts l).

(** The needle and the replacement, cut into the longest common start, the differing middles and the
    longest common end of what is left *)
Definition cut (needle replacement start mid mid' end_ : pystr) : Prop :=
  needle = start ++ mid ++ end_ /\ replacement = start ++ mid' ++ end_ /\
  (forall c t t', mid = c :: t -> mid' <> c :: t') /\
  (forall c t t', mid = t ++ [c] -> mid' <> t' ++ [c]).

(* Subtracting a position from another one and adding it back is exact. *)
Definition exact_positions (l : line) : Prop :=
  forall x y, In x (f_zero :: positions l) -> In y (f_zero :: positions l) ->
    same_float (f_add x (f_sub y x)) y.

(** The line with the differing middle replaced: the common characters stay where they were, the new
    middle is one part that stands where the old middle (or the common end) started, or at zero if
    nothing followed. *)
Definition edited (needle replacement : pystr) (l l' : line) : Prop :=
  exists start mid mid' end_, cut needle replacement start mid mid' end_ /\
    map p_content (l_parts l') = map (fun c => [c]) start ++ [mid'] ++ map (fun c => [c]) end_ /\
    same_float (l_margin_right l') (l_margin_right l) /\
    (exact_positions l ->
     Forall2 same_float (positions l')
       (firstn (List.length start) (positions l) ++
        [nth (List.length start) (positions l) f_zero] ++
        skipn (List.length needle - List.length end_) (positions l))).

(** Running fixups one after the other *)
Inductive applied : list (list line -> res (list line)) -> list line -> res (list line) -> Prop :=
| applied_done body : applied [] body (Ok body)
| applied_step f fs body body' r : f body = Ok body' -> applied fs body' r -> applied (f :: fs) body r
| applied_fail f fs body e : f body = Err e -> applied (f :: fs) body (Err ValueError).

(** Bracketed titles and article headers *)
Definition bracketed (s title : pystr) : Prop :=
  exists o c, In o (u8 "[(") /\ In c (u8 ")]") /\ ~ In 10%N title /\
    (s = o :: title ++ [c] \/ s = o :: title ++ [c; 10%N]).
Definition article_start (s header rest : pystr) : Prop :=
  exists digits, digits <> [] /\ Forall (fun c => 48 <= c <= 57)%N digits /\
    header = digits ++ u8 ". § " /\ s = header ++ rest /\
    (~ In 10%N rest \/ exists r, rest = r ++ [10%N] /\ ~ In 10%N r).

(* A bracketed line followed by an article line swaps its text into the article's header. *)
Inductive titles_moved : list line -> list line -> Prop :=
| moved_none : titles_moved [] []
| moved_last p : titles_moved [p] [p]
| moved_pair p l title header rest p' l' t t' :
    bracketed (l_content p) title -> article_start (l_content l) header rest ->
    l_content p' = header ++ u8 "[" ++ title ++ u8 "]" -> l_content l' = rest ->
    l_margin_right p' = l_margin_right p ->
    titles_moved t t' -> titles_moved (p :: l :: t) (p' :: l' :: t')
| moved_not p l t t' :
    (forall title header rest, bracketed (l_content p) title -> ~ article_start (l_content l) header rest) ->
    titles_moved (l :: t) t' -> titles_moved (p :: l :: t) (p :: t').
