(* How the text boxes of a page are laid out in rows (C44) and what becomes of characters (C59). *)
From Coq Require Import Floats.SpecFloat Sorting.Sorted.
From Verif Require Import PyBase LineModel PdfModel.
Local Open Scope Z_scope.

Definition f_lt (a b : pyfloat) : Prop := f_ltb a b = true.
Definition f_le (a b : pyfloat) : Prop := f_lt a b \/ a = b.
(* neither nan nor -0.0: for these == is equality *)
Definition proper (f : pyfloat) : Prop := f <> S754_nan /\ f <> S754_zero true.
Definition proper_box (b : textbox) : Prop := proper (tb_x b) /\ proper (tb_y b) /\ tb_content b <> [].

(* two boxes on the same place have the same text *)
Definition consistent (bs : list textbox) : Prop :=
  forall a b, In a bs -> In b bs -> tb_x a = tb_x b -> tb_y a = tb_y b -> tb_content a = tb_content b.

(* less than 0.2 above *)
Definition close (low y : pyfloat) : Prop := f_lt (SFabs (f_sub y low)) f_02.

(* b is in the row that begins at y: y is the highest of ys that is not above b *)
Definition row_of (ys : list pyfloat) (y : pyfloat) (b : textbox) : Prop :=
  In y ys /\ f_le y (tb_y b) /\ forall z, In z ys -> f_le z (tb_y b) -> f_le z y.
(* no box before b in bs has the same place *)
Definition drawn_first (bs : list textbox) (b : textbox) : Prop :=
  exists before after, bs = before ++ b :: after /\ Forall (fun c => ~ (tb_x c = tb_x b /\ tb_y c = tb_y b)) before.
(* the box of row y that is seen at its x: it is the first on its place, and none is higher in this row *)
Definition shown (bs : list textbox) (ys : list pyfloat) (y : pyfloat) (b : textbox) : Prop :=
  row_of ys y b /\ drawn_first bs b /\
  forall c, In c bs -> row_of ys y c -> tb_x c = tb_x b -> f_le (tb_y c) (tb_y b).

(* ys from top to bottom, each at least 0.2 above the next *)
Fixpoint spread (ys : list pyfloat) : Prop :=
  match ys with
  | a :: (b :: _) as t => f_lt b a /\ ~ close b a /\ spread t
  | _ => True
  end.

(* rs: the rows of the page from top to bottom, with the y of their lowest box *)
Definition page_rows (bs : list textbox) (rs : list (pyfloat * list textbox)) : Prop :=
  let ys := map fst rs in
  spread ys /\
  (forall y, In y ys -> exists b, In b bs /\ tb_y b = y) /\
  (forall b, In b bs -> exists y, row_of ys y b /\ (tb_y b = y \/ close y (tb_y b))) /\
  Forall (fun r => StronglySorted (fun a b => f_lt (tb_x a) (tb_x b)) (snd r) /\ forall b, In b (snd r) <-> In b bs /\ shown bs ys (fst r) b) rs.

(* where a space begins to be seen behind a box *)
Definition reach (b : textbox) : pyfloat := f_add (f_add (tb_x b) (tb_width b)) (f_mul (tb_space b) (f_dyadic 1 (-1))).
Definition ends_in_space (s : pystr) : bool := match rev s with c :: _ => N.eqb c 32 | [] => false end.
Definition spaced (b c : textbox) : bool :=
  (f_ltb (reach b) (tb_x c) || str_eqb (tb_content c) (u8 "„")) && negb (ends_in_space (tb_content b)).

Fixpoint row_text (bs : list textbox) : pystr :=
  match bs with
  | [] => []
  | b :: t => tb_content b ++ match t with c :: _ => if spaced b c then u8 " " else [] | [] => [] end ++ row_text t
  end.
(* the parts, each with its distance from the one before *)
Fixpoint row_parts (from : pyfloat) (bs : list textbox) : list part :=
  match bs with
  | [] => []
  | b :: t =>
      mk_part (f_sub (tb_x b) from) (tb_content b) (tb_bold b) ::
      match t with
      | c :: _ => if spaced b c then mk_part (f_sub (reach b) (tb_x b)) (u8 " ") false :: row_parts (reach b) t else row_parts (tb_x b) t
      | [] => []
      end
  end.
Definition row_margin (rightmost : pyfloat) (bs : list textbox) : pyfloat :=
  match rev bs with b :: _ => f_sub rightmost (f_sub (tb_x b) (tb_width b)) | [] => f_zero end.
Definition row_line (rightmost : pyfloat) (bs : list textbox) : line := mk_line (row_parts f_zero bs) (row_margin rightmost bs).

(* more than 18 from one row to the next, and the first one not at 0 *)
Definition gap (from y : pyfloat) : bool := negb (f_eqb from f_zero) && f_ltb (f_of_Z 18) (f_sub from y).
Fixpoint rows_lines (rightmost : pyfloat) (rs : list (pyfloat * list textbox)) : list line :=
  match rs with
  | [] => []
  | (y, bs) :: t => row_line rightmost bs :: match t with (y', _) :: _ => if gap y y' then [EMPTY_LINE] else [] | [] => [] end ++ rows_lines rightmost t
  end.
(* the right end of the box that reaches farthest *)
Definition is_rightmost (bs : list textbox) (m : pyfloat) : Prop :=
  (exists b, In b bs /\ m = f_add (tb_width b) (tb_x b)) /\ forall b, In b bs -> ~ f_lt m (f_add (tb_width b) (tb_x b)).

(** * Characters *)
(* the four letters that stand for Hungarian ones in the wrong encoding *)
Definition hungarian (c : N) : N :=
  match find (fun p => N.eqb (fst p) c) [(213, 336); (245, 337); (219, 368); (251, 369)]%N with Some p => snd p | None => c end.
Definition latin2 (cid : Z) : N := if cid <? 160 then Z.to_N cid else nth (Z.to_nat (cid - 160)) latin2_upper 0%N.
(* the text of a character: what the font says, but the case of Latin-2 if that is the only difference *)
Definition glyph (f : font) (cid : Z) : pystr :=
  let t := match fn_to_unichr f cid with Some t => t | None => u8 "[X]" end in
  map hungarian (if (cid <? 256) && str_eqb (str_upper [latin2 cid]) (str_upper t) then [latin2 cid] else t).
(* white space is not kept, nor what begins with a private or format character *)
Definition visible (t : pystr) : bool := negb (forallb isspace_chr t) && match t with c :: _ => negb (in_ranges co_cf_ranges c) | [] => false end.
Definition space_width (f : font) : pyfloat :=
  let w := fn_width f 32 in if f_eqb w (f_of_Z 1) || f_eqb w f_zero then f_dyadic 1 (-2) else w.
Definition char_boxes (c : char) : list textbox :=
  let t := glyph (ch_font c) (ch_cid c) in
  if visible t then
    [mk_tb (ch_x c) (round3 (ch_y c)) (f_mul (f_mul (f_mul (fn_width (ch_font c) (ch_cid c)) (ch_size c)) (ch_scaling c)) (ch_a c))
       (f_mul (f_mul (f_mul (space_width (ch_font c)) (ch_size c)) (ch_scaling c)) (ch_a c)) t (is_font_bold (ch_font c))]
  else [].
Definition page_events (cs : list char) : list event := BeginPage :: map RenderChar cs.
Definition good_char (c : char) : Prop := 0 <= ch_cid c /\ glyph (ch_font c) (ch_cid c) <> [].
