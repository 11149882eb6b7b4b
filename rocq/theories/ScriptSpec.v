(* What generate_act_to_mk_issue.py should do. *)
From Verif Require Import PyBase LineModel ScriptModel.
Local Open Scope Z_scope.

(** * Documents *)
Inductive node := Text (s : pystr) | Elem (tag : pystr) (inside : list node).
Fixpoint node_events (n : node) : list html_event :=
  match n with
  | Text s => [HData s]
  | Elem tag ns => HStart tag :: flat_map node_events ns ++ [HEnd tag]
  end.
(* a text without the white space around it, and with spaces for no-break spaces *)
Definition spaced (c : N) : N := if N.eqb c 160 then 32%N else c.
Inductive shown_text (s : pystr) : pystr -> Prop :=
| st_intro : forall before t after, s = before ++ t ++ after -> Forall (fun c => isspace_chr c = true) before -> Forall (fun c => isspace_chr c = true) after ->
    (forall c r, t = c :: r -> isspace_chr c = false) -> (forall c r, t = r ++ [c] -> isspace_chr c = false) -> shown_text s (map spaced t).
(* the texts that are not blank, each with the elements it is in, the outermost first *)
Inductive texts_in (path : list pystr) : list node -> list (list pystr * pystr) -> Prop :=
| ti_none : texts_in path [] []
| ti_blank : forall s ns l, shown_text s [] -> texts_in path ns l -> texts_in path (Text s :: ns) l
| ti_text : forall s t ns l, shown_text s t -> t <> [] -> texts_in path ns l -> texts_in path (Text s :: ns) ((path, t) :: l)
| ti_elem : forall tag inside ns l l', texts_in (path ++ [tag]) inside l -> texts_in path ns l' -> texts_in path (Elem tag inside :: ns) (l ++ l').
(* no element is inside another one of the same name *)
Inductive no_nesting (path : list pystr) : list node -> Prop :=
| nn_none : no_nesting path []
| nn_text : forall s ns, no_nesting path ns -> no_nesting path (Text s :: ns)
| nn_elem : forall tag inside ns, ~ In tag path -> no_nesting (path ++ [tag]) inside -> no_nesting path ns -> no_nesting path (Elem tag inside :: ns).
(* what is shown of a list of calls, in whatever elements *)
Inductive texts_of : list html_event -> list pystr -> Prop :=
| to_none : texts_of [] []
| to_tag : forall e es l, (forall s, e <> HData s) -> texts_of es l -> texts_of (e :: es) l
| to_blank : forall s es l, shown_text s [] -> texts_of es l -> texts_of (HData s :: es) l
| to_text : forall s t es l, shown_text s t -> t <> [] -> texts_of es l -> texts_of (HData s :: es) (t :: l).

(** * Acts *)
(* a text that starts like the identifier of an act of this century *)
Definition starts_like_act (s : pystr) : Prop := exists a b x rest,
  s = u8 "20" ++ [a; b] ++ u8 ". évi " ++ x ++ u8 " törvény" ++ rest /\ ~ In 10%N (a :: b :: x).
(* the acts in a list of texts: those that are followed by a text that is not one of them *)
Inductive listed : list pystr -> list (pystr * pystr) -> Prop :=
| ls_none : listed [] []
| ls_last : forall x, listed [x] []
| ls_act : forall x y texts l, starts_like_act x -> ~ starts_like_act y -> listed (y :: texts) l -> listed (x :: y :: texts) ((x, y) :: l)
| ls_other : forall x y texts l, ~ starts_like_act x \/ starts_like_act y -> listed (y :: texts) l -> listed (x :: y :: texts) l.

(** * Tables: a line of comma separated values, as the csv module reads it *)
Inductive csv_state := FieldStart | InField | InQuotes | QuoteInQuotes.
Fixpoint csv_fields (st : csv_state) (field : pystr) (s : pystr) : list pystr :=
  match s with
  | [] => [field]
  | c :: t =>
      match st with
      | FieldStart => if N.eqb c 44 then field :: csv_fields FieldStart [] t else if N.eqb c 34 then csv_fields InQuotes field t else csv_fields InField (field ++ [c]) t
      | InField => if N.eqb c 44 then field :: csv_fields FieldStart [] t else csv_fields InField (field ++ [c]) t
      | InQuotes => if N.eqb c 34 then csv_fields QuoteInQuotes field t else csv_fields InQuotes (field ++ [c]) t
      | QuoteInQuotes => if N.eqb c 34 then csv_fields InQuotes (field ++ [c]) t
                         else if N.eqb c 44 then field :: csv_fields FieldStart [] t else csv_fields InField (field ++ [c]) t
      end
  end.
Definition csv_read (line : pystr) : list pystr := csv_fields FieldStart [] line.
(* the fields of a line *)
Definition csv_line (line : pystr) (fields : list pystr) : Prop := ~ In 10%N line /\ ~ In 13%N line /\ csv_read line = fields.

(** * Requests *)
Definition in_years (y i : Z) : Prop := 2009 <= y <= 2019 /\ 1 <= i <= 359.
Definition earlier (a b : Z * Z) : Prop := fst a < fst b \/ fst a = fst b /\ snd a < snd b.
