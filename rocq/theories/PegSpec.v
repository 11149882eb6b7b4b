(* Independent specification of what the grammar finds in a text. *)
From Verif Require Import PyBase NumModel IdModel DateModel DateSpec RefModel RefSpec StructModel StructSpec TreeModel SemModel SemSpec GramModel GramSpec.
Local Open Scope Z_scope.

(** * Places in a text *)

(* [a, b) is a piece of the text that does not begin or end with white space *)
Definition piece (text : pystr) (a b : Z) : Prop :=
  exists u v w, text = u ++ v ++ w /\ a = Z.of_nat (length u) /\ b = Z.of_nat (length u + length v) /\
    v <> [] /\ isspace_chr (hd 0%N v) = false /\ isspace_chr (last v 0%N) = false.
(* a text without its white space *)
Definition squeeze (s : pystr) : pystr := filter (fun c => negb (isspace_chr c)) s.
(* the characters of [i] stand in the text one after another, with white space between them at most *)
Definition written (text i : pystr) : Prop := exists u v w, text = u ++ v ++ w /\ squeeze v = i.

(** * Identifiers *)

Definition digits (s : pystr) : Prop := s <> [] /\ Forall (fun c => 48 <= c <= 57)%N s.
Definition is_small (c : N) : Prop := (97 <= c <= 122)%N.
Definition is_capital (c : N) : Prop := (65 <= c <= 90)%N.
(* one or no letter *)
Inductive maybe (P : N -> Prop) : pystr -> Prop :=
| mb_none : maybe P []
| mb_some c : P c -> maybe P [c].
(* 12, 12/A, 3:12, 3:12/A *)
Inductive article_shape : pystr -> Prop :=
| as_plain n : digits n -> article_shape n
| as_letter n c : digits n -> is_capital c -> article_shape (n ++ [47%N; c])
| as_book b n : digits b -> digits n -> article_shape (b ++ [58%N] ++ n)
| as_both b n c : digits b -> digits n -> is_capital c -> article_shape (b ++ [58%N] ++ n ++ [47%N; c]).
(* 3, 3a *)
Definition paragraph_shape (i : pystr) : Prop := exists n l, i = n ++ l /\ digits n /\ maybe is_small l.
(* b, ny, sz; 5, 5a, 5/a *)
Definition point_shape (i : pystr) : Prop :=
  (exists c, i = [c] /\ is_small c) \/ i = u8 "ny" \/ i = u8 "sz" \/
  (exists n sl l, i = n ++ sl ++ l /\ digits n /\ maybe is_small l /\ maybe (eq 47%N) sl /\ (sl <> [] -> l <> [])).
(* b, ba; 5 *)
Definition subpoint_shape (i : pystr) : Prop := (exists c l, i = c :: l /\ is_small c /\ maybe is_small l) \/ digits i.
Definition id_shape (level : nat) (i : pystr) : Prop :=
  match level with
  | 1%nat => article_shape i
  | 2%nat => paragraph_shape i
  | 3%nat => point_shape i
  | 4%nat => subpoint_shape i
  | _ => False
  end.
Definition ids_of (p : rpart) : list pystr := match p with RNone => [] | RId a => [a] | RRange a b => [a; b] end.

(** * Acts *)

Definition roman_letters (s : pystr) : Prop := s <> [] /\ Forall (fun c => In c (u8 "IVXLCDM")) s.
Definition hun_small (c : N) : Prop := is_small c \/ In c (u8 "éáőúöüóíű").
Definition hun_capital (c : N) : Prop := is_capital c \/ In c (u8 "ÉÁŐÚÖÜÓÍŰ").
(* a word with a capital, then a full stop, "tv." or "vhr.", perhaps after a space *)
Definition abbreviation_shape (s : pystr) : Prop :=
  exists c w e, s = c :: w ++ e /\ hun_capital c /\ w <> [] /\ Forall hun_small w /\
    In e [u8 "."; u8 "tv."; u8 "vhr."; u8 " tv."; u8 " vhr."; u8 ".tv."; u8 ".vhr."; u8 ". tv."; u8 ". vhr."].
(* an act named in the text, by an abbreviation or by its number *)
Inductive act_named (text : pystr) : pystr -> Prop :=
| an_abbreviation s u w : text = u ++ s ++ w -> abbreviation_shape s -> act_named text s
| an_number y n e : digits y -> roman_letters n -> In e [u8 "törvén"; u8 "tv."] ->
    written text (y ++ u8 ".évi" ++ n ++ u8 "." ++ e) -> act_named text (y ++ u8 ". évi " ++ n ++ u8 ". törvény").

(* all that a reference says is in the text *)
Definition grounded (text : pystr) (r : reference) : Prop :=
  (forall a, r_act r = Some a -> act_named text a) /\
  (forall k i, (1 <= k)%nat -> In i (ids_of (nth_part r k)) -> id_shape k i /\ written text i).

(** * Quotes *)

Definition plain_text (s : pystr) : Prop := Forall (fun c => ~ In c (u8 "„”")) s.
(* each quote that is opened is closed *)
Inductive balanced : pystr -> Prop :=
| bal_plain s : plain_text s -> balanced s
| bal_quote a b c : balanced a -> balanced b -> plain_text c -> balanced (a ++ u8 "„" ++ b ++ u8 "”" ++ c).
(* the text has [s] in quotes, perhaps with white space around it *)
Definition quoted (text s : pystr) : Prop :=
  exists u inner w, text = u ++ u8 "„" ++ inner ++ u8 "”" ++ w /\ balanced inner /\ s = str_strip inner.

(** * Numbers and dates *)

(* a number in digits or in words *)
Definition number_said (text : pystr) (n : Z) : Prop := exists w, written text w /\ (numeral w n \/ ordinal_of n w).
Definition date_said (text : pystr) (d : date) : Prop :=
  exists y day, numeral y (d_year d) /\ numeral day (d_day d) /\ 1 <= d_month d <= 12 /\
    written text (y ++ u8 "." ++ nth (Z.to_nat (d_month d - 1)) month_names [] ++ day).
(* without a number it is the first day, or the first month *)
Definition when_said (text : pystr) (e : enforcement_date_type) : Prop :=
  match e with
  | EDate d => date_said text d
  | EDaysAfterPublication n => n = 1 \/ number_said text n
  | EDayInMonthAfterPublication d m => number_said text d /\ (m = 1 \/ number_said text m)
  | ESpecial _ => False
  end.

(** * Structural references and semantic data *)

(* books and parts by an ordinal, titles and chapters by a roman numeral, perhaps with a letter *)
Definition ordinal_said (text i : pystr) : Prop := exists n w, written text w /\ ordinal_of n w /\ i = str_of_int n.
Definition roman_said (text i : pystr) : Prop := exists w, written text w /\ roman_to_arabic_with_postfix w = Ok i.
Definition subtitle_said (text t : pystr) : Prop := quoted text t \/ written text (squeeze t).
Record structural_grounded (text : pystr) (r : structural_reference) : Prop := mk_structural_grounded {
  sg_act : forall a, sr_act r = Some a -> act_named text a;
  sg_article : forall c, sr_special r = Some c -> article_shape (combo_article c) /\ written text (combo_article c);
  sg_book : forall i, sr_book r = Some i -> ordinal_said text i;
  sg_part : forall i, sr_part r = Some i -> ordinal_said text i;
  sg_title : forall i, sr_title r = Some i -> roman_said text i;
  sg_chapter : forall i, sr_chapter r = Some i -> roman_said text i;
  sg_subtitle : forall t, sr_subtitle r = Some t -> subtitle_said text t
}.
Definition position_grounded (text : pystr) (r : any_reference) : Prop :=
  match r with ARef r => grounded text r | ASRef r => structural_grounded text r end.
Definition semantic_grounded (text : pystr) (s : semantic_data) : Prop :=
  match s with
  | BlockAmendment p _ => position_grounded text p
  | EnforcementDate p d repeal =>
      (forall r, p = Some r -> grounded text r) /\ when_said text d /\ (forall d, repeal = Some d -> date_said text d)
  | TextAmendment r x y => grounded text r /\ quoted text x /\ quoted text y
  | ArticleTitleAmendment r x y => grounded text r /\ quoted text x /\ quoted text y
  | Repeal p t => position_grounded text p /\ (forall x, t = Some x -> quoted text x)
  end.
(* an abbreviation that the text introduces for an act *)
Definition abbreviation_grounded (text : pystr) (a : act_id_abbreviation) : Prop :=
  (exists u w, text = u ++ ab_abbreviation a ++ w) /\ abbreviation_shape (ab_abbreviation a) /\ act_named text (ab_act a).

(** * Texts *)

(* a character that is not white space *)
Definition visible (text : pystr) : Prop := exists c, In c text /\ isspace_chr c = false.
Definition has (text w : pystr) : Prop := exists u v, text = u ++ w ++ v.
Definition ends_in_colon (text : pystr) : Prop :=
  exists u v, text = u ++ u8 ":" ++ v /\ Forall (fun c => isspace_chr c = true) v.
(* nothing of what can make the conversion of a parse tree fail: no subpoints, no block amendments of
   subtitles, none that both amend and insert, no dates of entering into force *)
Definition unsuspected (text : pystr) : Prop :=
  ~ has text (u8 "alpont") /\
  ~ (ends_in_colon text /\ has text (u8 "alcím")) /\
  ~ (ends_in_colon text /\ (has text (u8 "helyébe a következő") \/ has text (u8 "a következő szöveggel lép hatályba")) /\
     (has text (u8 "egészül ki") \/ has text (u8 "kiegészülve lép hatályba"))) /\
  ~ (has text (u8 "lép hatályba") /\ exists m, In m month_names /\ has text m).

(* a dash other than the one before an ending of a paragraph sign, as in 3. §-a *)
Definition range_dash (text : pystr) : Prop :=
  exists u d v, text = u ++ d :: v /\ In d (u8 "−–-") /\ ~ exists u' c v', u = u' ++ u8 "§" /\ v = c :: v' /\ is_small c.

(** * Acts *)

(* a text of an act: something is left of it after cutting, and if the grammar is run on it, nothing
   in it is suspect *)
Definition clear (rd : reading) : Prop :=
  match rd_text rd with
  | None => True
  | Some s => exists t, item_text s (rd_after rd) t /\
      (worth_reading (rd_before rd ++ t ++ rd_after rd) -> unsuspected (rd_before rd ++ t ++ rd_after rd))
  end.
(* no ranges of articles, paragraphs or points in what the grammar is run on *)
Definition rangeless (rd : reading) : Prop :=
  match rd_text rd with
  | None => True
  | Some s => forall t, item_text s (rd_after rd) t -> worth_reading (rd_before rd ++ t ++ rd_after rd) ->
      ~ range_dash (rd_before rd ++ t ++ rd_after rd)
  end.
