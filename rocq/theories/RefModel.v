(* Model of the Reference classes of hun_law/structure.py. *)
From Verif Require Import PyBase NumModel IdModel.
Local Open Scope Z_scope.

(* structure.py:743, ReferencePartType: None, an identifier, or a range (first, last) *)
Inductive rpart :=
| RNone
| RId (s : pystr)
| RRange (a b : pystr).

(* structure.py:746-756.  attrs does not check the types of the fields; as annotated, the act is
   never a range. *)
Record reference := mk_ref {
  r_act : option pystr;
  r_article : rpart;
  r_paragraph : rpart;
  r_point : rpart;
  r_subpoint : rpart
}.

(* Reference() *)
Definition EMPTY_REF : reference := mk_ref None RNone RNone RNone RNone.

Definition act_part (a : option pystr) : rpart :=
  match a with None => RNone | Some s => RId s end.

(* getattr for the component names 'act', 'article', 'paragraph', 'point', 'subpoint', in the
   order of the loops at structure.py:763, 806, 900 *)
Definition components (r : reference) : list rpart :=
  [act_part (r_act r); r_article r; r_paragraph r; r_point r; r_subpoint r].

Definition is_none (p : rpart) : bool := match p with RNone => true | _ => false end.
Definition is_tuple (p : rpart) : bool := match p with RRange _ _ => true | _ => false end.

(* Python's == on the values of a component *)
Definition rpart_eqb (a b : rpart) : bool :=
  match a, b with
  | RNone, RNone => true
  | RId x, RId y => str_eqb x y
  | RRange x y, RRange x' y' => str_eqb x x' && str_eqb y y'
  | _, _ => false
  end.

(* the __eq__ that attrs generates (structure.py:746) *)
Definition ref_eqb (a b : reference) : bool :=
  forallb (fun '(x, y) => rpart_eqb x y) (combine (components a) (components b)).

(* structure.py:763-776, the loop of __lt_gt over pairs of components *)
Fixpoint lt_gt_loop (lt : bool) (xs ys : list rpart) : res bool :=
  match xs, ys with
  | x :: xs', y :: ys' =>
      if is_tuple x || is_tuple y then Err ValueError
      else if negb (rpart_eqb x y) then
        match x, y with
        | RNone, _ => Ok lt
        | _, RNone => Ok (negb lt)
        | RId a, RId b => if lt then identifier_less a b else identifier_less b a
        | _, _ => Err ValueError
        end
      else lt_gt_loop lt xs' ys'
  | _, _ => Ok false
  end.

(* structure.py:758-778.  The isinstance check on [other] is not modelled: the argument is a
   Reference. *)
Definition ref_lt_gt (a b : reference) (lt : bool) : res bool :=
  lt_gt_loop lt (components a) (components b).

(* structure.py:780-790 *)
Definition ref_lt (a b : reference) : res bool := ref_lt_gt a b true.
Definition ref_gt (a b : reference) : res bool := ref_lt_gt a b false.
Definition ref_le (a b : reference) : res bool :=
  if ref_eqb a b then Ok true else ref_lt_gt a b true.
Definition ref_ge (a b : reference) : res bool :=
  if ref_eqb a b then Ok true else ref_lt_gt a b false.

(* structure.py:792-793 *)
Definition is_relative (r : reference) : bool :=
  match r_act r with None => true | Some _ => false end.

(* structure.py:795-801 *)
Definition is_range (r : reference) : bool :=
  is_tuple (r_article r) || is_tuple (r_paragraph r) || is_tuple (r_point r)
  || is_tuple (r_subpoint r).

(* structure.py:803-810.  One step per key; [my_part] is the loop's flag. *)
Definition relative_to (self other : reference) : reference :=
  let my1 := match r_act self with None => false | Some _ => true end in
  let act := if my1 then r_act self else r_act other in
  let my2 := if is_none (r_article self) then my1 else true in
  let article := if my2 then r_article self else r_article other in
  let my3 := if is_none (r_paragraph self) then my2 else true in
  let paragraph := if my3 then r_paragraph self else r_paragraph other in
  let my4 := if is_none (r_point self) then my3 else true in
  let point := if my4 then r_point self else r_point other in
  let my5 := if is_none (r_subpoint self) then my4 else true in
  let subpoint := if my5 then r_subpoint self else r_subpoint other in
  mk_ref act article paragraph point subpoint.

(* structure.py:815-821 *)
Definition rpart_text (p : rpart) : pystr :=
  match p with
  | RNone => []
  | RId s => s
  | RRange a b => a ++ [45%N] ++ b
  end.

(* structure.py:812-825 *)
Definition relative_id_string (r : reference) : pystr :=
  let result := join_str (u8 "_") (map rpart_text [r_article r; r_paragraph r; r_point r; r_subpoint r]) in
  let result := replace_str (u8 "/") (u8 "slash") result in
  replace_str (u8 ":") (u8 "colon") result.

(* structure.py:834-842.  With more than one '-' the pieces after the second are dropped. *)
Definition rpart_of_text (part : pystr) : rpart :=
  match split_chr 45 part with
  | a :: b :: _ => RRange a b
  | _ => match part with [] => RNone | _ => RId part end
  end.

(* structure.py:827-843 *)
Definition from_relative_id_string (s : pystr) : res reference :=
  let s := replace_str (u8 "slash") (u8 "/") s in
  let s := replace_str (u8 "colon") (u8 ":") s in
  match split_chr 95 s with
  | [p0; p1; p2; p3] =>
      Ok (mk_ref None (rpart_of_text p0) (rpart_of_text p1) (rpart_of_text p2) (rpart_of_text p3))
  | _ => Err ValueError
  end.

Definition part_first (p : rpart) : rpart := match p with RRange a _ => RId a | _ => p end.
Definition part_last (p : rpart) : rpart := match p with RRange _ b => RId b | _ => p end.

(* structure.py:845-867 *)
Definition first_in_range (r : reference) : reference :=
  mk_ref (r_act r) (part_first (r_article r)) (part_first (r_paragraph r))
         (part_first (r_point r)) (part_first (r_subpoint r)).
Definition last_in_range (r : reference) : reference :=
  mk_ref (r_act r) (part_last (r_article r)) (part_last (r_paragraph r))
         (part_last (r_point r)) (part_last (r_subpoint r)).

(* structure.py:872-884, one key.  Components that are already ranges would make Python split a
   tuple into nested tuples; the only caller (grammatical_analyzer.py:368) passes results of
   first_in_range and last_in_range, which have none.  The model gives OutOfFuel there, which no
   theorem counts as an answer. *)
Definition make_range_part (first last : rpart) : res rpart :=
  match first, last with
  | RNone, RNone => Ok RNone
  | RNone, _ => Err AssertionError
  | _, RNone => Err AssertionError
  | RId a, RId b =>
      if str_eqb a b then Ok (RId a)
      else lt <- identifier_less a b ;;
           if (lt : bool) then Ok (RRange a b) else Err AssertionError
  | _, _ => Err OutOfFuel
  end.

(* [x or y] on Optional[str]: an empty string is false *)
Definition opt_str_or (x y : option pystr) : option pystr :=
  match x with Some (_ :: _) => x | _ => y end.

(* structure.py:869-886 *)
Definition make_range (first last : reference) : res reference :=
  article <- make_range_part (r_article first) (r_article last) ;;
  paragraph <- make_range_part (r_paragraph first) (r_paragraph last) ;;
  point <- make_range_part (r_point first) (r_point last) ;;
  subpoint <- make_range_part (r_subpoint first) (r_subpoint last) ;;
  Ok (mk_ref (opt_str_or (r_act first) (r_act last)) article paragraph point subpoint).

(* structure.py:888-897 *)
Definition parent (r : reference) : reference :=
  match r with
  | mk_ref act art par pt sub =>
      if negb (is_none sub) then mk_ref act art par pt RNone
      else if negb (is_none pt) then mk_ref act art par RNone sub
      else if negb (is_none par) then mk_ref act art RNone pt sub
      else if negb (is_none art) then mk_ref act RNone par pt sub
      else EMPTY_REF
  end.

(* structure.py:899-906 *)
Fixpoint is_parent_loop (xs ys : list rpart) : bool :=
  match xs, ys with
  | x :: xs', y :: ys' =>
      if negb (rpart_eqb x y) then is_none x else is_parent_loop xs' ys'
  | _, _ => false
  end.
Definition is_parent_of (self other : reference) : bool :=
  is_parent_loop (components self) (components other).

(* The classes a last component can have *)
Inductive ref_class :=
| CAct | CArticle | CParagraph | CNumericPoint | CAlphabeticPoint | CNumericSubpoint
| CAlphabeticSubpoint.

(* [first_id[0].isdigit()] with the first identifier of a part *)
Definition starts_with_digit (p : rpart) : res bool :=
  match part_first p with
  | RId (c :: _) => Ok (isdigit_chr c)
  | _ => Err IndexError
  end.

(* structure.py:908-929; (None, None) is [None] *)
Definition last_component_with_type (r : reference) : res (option (rpart * ref_class)) :=
  if negb (is_none (r_subpoint r)) then
    d <- starts_with_digit (r_subpoint r) ;;
    Ok (Some (r_subpoint r, if (d : bool) then CNumericSubpoint else CAlphabeticSubpoint))
  else if negb (is_none (r_point r)) then
    d <- starts_with_digit (r_point r) ;;
    Ok (Some (r_point r, if (d : bool) then CNumericPoint else CAlphabeticPoint))
  else if negb (is_none (r_paragraph r)) then Ok (Some (r_paragraph r, CParagraph))
  else if negb (is_none (r_article r)) then Ok (Some (r_article r, CArticle))
  else match r_act r with
       | Some a => Ok (Some (RId a, CAct))
       | None => Ok None
       end.

(* Mapping[str, str]: what it maps each key to *)
Definition abbrev_map := pystr -> option pystr.

Definition resolve_act (m : abbrev_map) (a : option pystr) : option pystr :=
  match a with
  | None => None
  | Some x => match m x with None => a | Some y => Some y end
  end.

(* structure.py:931-938 *)
Definition resolve_abbreviations (r : reference) (m : abbrev_map) : reference :=
  mk_ref (resolve_act m (r_act r)) (r_article r) (r_paragraph r) (r_point r) (r_subpoint r).

(* structure.py:940-954 *)
Definition contains (self other : reference) : res bool :=
  let self_first := first_in_range self in
  let self_last := last_in_range self in
  let other_first := first_in_range other in
  let other_last := last_in_range other in
  le <- ref_le self_first other_first ;;
  if le || is_parent_of self_first other_first then
    ge <- ref_ge self_last other_last ;;
    Ok (ge || is_parent_of self_last other_last)
  else Ok false.

(** * Structural references and semantic data *)

(* structure.py:957-966 *)
Inductive combo_position := BEFORE_WITH_ARTICLE | BEFORE_WITHOUT_ARTICLE | AFTER.
Record subtitle_article_combo := mk_combo { combo_pos : combo_position; combo_article : pystr }.

(* structure.py:969-977 *)
Record structural_reference := mk_sref {
  sr_act : option pystr;
  sr_book : option pystr;
  sr_part : option pystr;
  sr_title : option pystr;
  sr_chapter : option pystr;
  sr_subtitle : option pystr;
  sr_special : option subtitle_article_combo
}.

(* structure.py:979-986 *)
Definition sref_resolve (r : structural_reference) (m : abbrev_map) : structural_reference :=
  mk_sref (resolve_act m (sr_act r)) (sr_book r) (sr_part r) (sr_title r) (sr_chapter r)
          (sr_subtitle r) (sr_special r).

Inductive sref_class := SAct | SBook | SPart | STitle | SChapter | SSubtitle.

(* structure.py:988-1005 *)
Definition sref_last_component (r : structural_reference) : res (option (pystr * sref_class)) :=
  match sr_special r, sr_subtitle r, sr_chapter r, sr_title r, sr_part r, sr_book r, sr_act r with
  | Some _, _, _, _, _, _, _ => Err ValueError
  | _, Some s, _, _, _, _, _ => Ok (Some (s, SSubtitle))
  | _, _, Some s, _, _, _, _ => Ok (Some (s, SChapter))
  | _, _, _, Some s, _, _, _ => Ok (Some (s, STitle))
  | _, _, _, _, Some s, _, _ => Ok (Some (s, SPart))
  | _, _, _, _, _, Some s, _ => Ok (Some (s, SBook))
  | _, _, _, _, _, _, Some s => Ok (Some (s, SAct))
  | _, _, _, _, _, _, _ => Ok None
  end.

(* Union[Reference, StructuralReference] *)
Inductive any_reference :=
| ARef (r : reference)
| ASRef (r : structural_reference).
Definition any_resolve (r : any_reference) (m : abbrev_map) : any_reference :=
  match r with
  | ARef r => ARef (resolve_abbreviations r m)
  | ASRef r => ASRef (sref_resolve r m)
  end.
