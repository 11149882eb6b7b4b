(* Model of hun_law/grammar/grammar.ebnf: the parser that tatsu 4.3.0 generates from it, rule by
   rule.  Lines cited without a file are lines of grammar.ebnf.

   What is modelled of tatsu: white space is skipped before tokens, before rules (all names start
   with a small letter) and before the end of the text, but not before patterns; a token that is a
   word does not match the beginning of a longer word (nameguard); choices take the first
   alternative that matches; options and repetitions are greedy and never taken back; a failed
   alternative leaves no trace in the tree; parseinfo is where a rule begins, after the white
   space, and where it ends.  Memoization has no effect on results and is left out. *)
From Verif Require Import PyBase UnicodeAlnum NumModel IdModel LineModel DateModel RefModel TreeModel StructModel SemModel GramModel.
Local Open Scope Z_scope.

(** * Parsers *)

(* A parser takes the rest of the text and returns what it made of it and what is left. *)
Definition parser (A : Type) := pystr -> option (A * pystr).

Definition p_ret {A} (x : A) : parser A := fun s => Some (x, s).
Definition p_bind {A B} (p : parser A) (f : A -> parser B) : parser B := fun s =>
  match p s with
  | Some (x, s') => f x s'
  | None => None
  end.
Notation "x <~ p ;; f" := (p_bind p (fun x => f)) (at level 61, p at next level, right associativity).
Notation "p ;~ f" := (p_bind p (fun _ => f)) (at level 61, right associativity).
(* a | b *)
Definition p_or {A} (p q : parser A) : parser A := fun s =>
  match p s with
  | Some r => Some r
  | None => q s
  end.
Notation "p <|> q" := (p_or p q) (at level 50, left associativity).
(* [a] *)
Definition p_opt {A} (p : parser A) : parser (option A) := fun s =>
  match p s with
  | Some (x, s') => Some (Some x, s')
  | None => Some (None, s)
  end.
(* {a}*: as long as it matches.  No repeated expression of the grammar matches the empty text, so
   the check for that is left out and the length of the text bounds the number of rounds. *)
Fixpoint p_rounds {A} (fuel : nat) (p : parser A) (s : pystr) : list A * pystr :=
  match fuel with
  | O => ([], s)
  | S fuel =>
      match p s with
      | Some (x, s') => let '(l, r) := p_rounds fuel p s' in (x :: l, r)
      | None => ([], s)
      end
  end.
Definition p_many {A} (p : parser A) : parser (list A) := fun s => Some (p_rounds (List.length s) p s).
(* {a}+ *)
Definition p_many1 {A} (p : parser A) : parser (list A) :=
  x <~ p ;; l <~ p_many p ;; p_ret (x :: l).
(* !a and &a *)
Definition p_not {A} (p : parser A) : parser unit := fun s =>
  match p s with Some _ => None | None => Some (tt, s) end.
Definition p_and {A} (p : parser A) : parser unit := fun s =>
  match p s with Some _ => Some (tt, s) | None => None end.
Definition p_map {A B} (f : A -> B) (p : parser A) : parser B := x <~ p ;; p_ret (f x).

(* the white space in front *)
Definition ws (s : pystr) : pystr := drop_while isspace_chr s.
(* a rule *)
Definition p_rule {A} (p : parser A) : parser A := fun s => p (ws s).
(* $ *)
Definition p_eof : parser unit := fun s => match ws s with [] => Some (tt, []) | _ => None end.

(* str.isalpha and str.isalnum of a character; namechars (18) are all letters *)
Definition isalpha_chr (c : N) : bool := in_ranges isalpha_ranges c.
Definition isalnum_chr (c : N) : bool := isalpha_chr c || in_ranges isalnum_other_ranges c.
Fixpoint after_prefix (w s : pystr) : option pystr :=
  match w, s with
  | [], _ => Some s
  | c :: w', d :: s' => if (c =? d)%N then after_prefix w' s' else None
  | _ :: _, [] => None
  end.
Definition is_name (w : pystr) : bool :=
  forallb isalnum_chr w && match w with c :: _ => isalpha_chr c | [] => false end.
Definition name_goes_on (s : pystr) : bool := match s with c :: _ => isalnum_chr c | [] => false end.
(* "w" *)
Definition p_tok (w : pystr) : parser pystr := fun s =>
  match after_prefix w (ws s) with
  | Some r => if is_name w && name_goes_on r then None else Some (w, r)
  | None => None
  end.
(* "w" | "v" | ... *)
Definition p_toks (l : list pystr) : parser pystr := fold_right (fun w p => p_tok w <|> p) (fun _ => None) l.

(** * Patterns *)

(* the part of Python's regular expressions that the grammar uses *)
Inductive regex :=
| RSet (f : N -> bool)               (* [...] *)
| RStar (f : N -> bool)              (* [...]* *)
| RPlus (f : N -> bool)              (* [...]+ *)
| ROpt (f : N -> bool)               (* [...]? *)
| RLit (w : pystr)
| RSeq (a b : regex)
| RAlt (a b : regex).
(* the rest after the first match in the order of backtracking that lets [k] match too *)
Fixpoint r_match (r : regex) (k : pystr -> option pystr) (s : pystr) : option pystr :=
  match r with
  | RSet f => match s with c :: t => if f c then k t else None | [] => None end
  | RStar f =>
      (fix go (s : pystr) : option pystr :=
         match s with
         | c :: t => if f c then match go t with Some x => Some x | None => k s end else k s
         | [] => k s
         end) s
  | RPlus f =>
      (fix go (s : pystr) : option pystr :=
         match s with
         | c :: t => if f c then match go t with Some x => Some x | None => k t end else None
         | [] => None
         end) s
  | ROpt f =>
      match s with
      | c :: t => if f c then match k t with Some x => Some x | None => k s end else k s
      | [] => k s
      end
  | RLit w => match after_prefix w s with Some t => k t | None => None end
  | RSeq a b => r_match a (r_match b k) s
  | RAlt a b => match r_match a k s with Some x => Some x | None => r_match b k s end
  end.
(* /r/ *)
Definition p_re (r : regex) : parser pystr := fun s =>
  match r_match r Some s with
  | Some t => Some (firstn (List.length s - List.length t) s, t)
  | None => None
  end.

Definition accented_small : pystr := u8 "éáőúöüóíű".
Definition accented_capital : pystr := u8 "ÉÁŐÚÖÜÓÍŰ".
Definition in_str (l : pystr) (c : N) : bool := existsb (N.eqb c) l.
(* [a-z], [A-Z], [0-9], [a-zéáőúöüóíű], [A-ZÉÁŐÚÖÜÓÍŰ] *)
Definition c_az (c : N) : bool := ((97 <=? c) && (c <=? 122))%N.
Definition c_AZ (c : N) : bool := ((65 <=? c) && (c <=? 90))%N.
Definition c_09 (c : N) : bool := ((48 <=? c) && (c <=? 57))%N.
Definition c_small (c : N) : bool := c_az c || in_str accented_small c.
Definition c_capital (c : N) : bool := c_AZ c || in_str accented_capital c.
Definition c_roman (c : N) : bool := in_str (u8 "IVXLCDM") c.
Definition c_word (c : N) : bool := c_small c || c_capital c || (c =? 45)%N.
Definition c_not_quote (c : N) : bool := negb (in_str (u8 "„”") c).
Definition c_not_newline (c : N) : bool := negb (c =? 10)%N.
(* /w[a-zéáőúöüóíű]+/ *)
Definition p_suffixed (w : pystr) : parser pystr := p_re (RSeq (RLit w) (RPlus c_small)).

(** * Simple tokens *)

(* 329-331 *)
Definition g_number : parser pystr := p_rule (p_re (RPlus c_09)).
Definition g_word : parser pystr := p_rule (p_re (RPlus c_word)).
Definition g_roman : parser pystr := p_rule (p_re (RPlus c_roman)).
(* 324 *)
Definition g_any_token : parser pystr := p_rule (g_word <|> g_number <|> p_re (RSet c_not_newline)).
(* 326 *)
Definition g_az : parser pystr :=
  p_rule (p_re (RSeq (RLit (u8 "a")) (RSeq (ROpt (N.eqb 122)) (RLit (u8 " "))))).
(* 327: only the number *)
Definition g_number_with_dot : parser pystr := p_rule (n <~ g_number ;; p_tok (u8 ".") ;~ p_ret n).
(* 337-338 *)
Definition g_month : parser pystr := p_rule (p_toks
  [u8 "január"; u8 "február"; u8 "március"; u8 "április"; u8 "május"; u8 "június";
   u8 "július"; u8 "augusztus"; u8 "szeptember"; u8 "október"; u8 "november"; u8 "december"]).
(* 340-345 *)
Definition g_ordinals : list pystr :=
  [u8 "első"; u8 "második"; u8 "harmadik"; u8 "negyedik"; u8 "ötödik";
   u8 "hatodik"; u8 "hetedik"; u8 "nyolcadik"; u8 "kilencedik"; u8 "tizedik";
   u8 "tizenegyedik"; u8 "tizenkettedik"; u8 "tizenharmadik"; u8 "tizennegyedik"; u8 "tizenötödik";
   u8 "tizenhatodik"; u8 "tizenhetedik"; u8 "tizennyolcadik"; u8 "tizenkilencedik";
   u8 "huszadik"; u8 "harmincadik"; u8 "negyvenedik"; u8 "ötvenedik";
   u8 "hatvanadik"; u8 "hetvenedik"; u8 "nyolcvanadik"; u8 "kilencvenedik"].
Definition g_hungarian_ordinal : parser pystr := p_rule (p_toks g_ordinals).
(* 347-350 *)
Definition g_capital_ordinals : list pystr :=
  [u8 "Első"; u8 "Második"; u8 "Harmadik"; u8 "Negyedik"; u8 "Ötödik";
   u8 "Hatodik"; u8 "Hetedik"; u8 "Nyolcadik"; u8 "Kilencedik"; u8 "Tizedik";
   u8 "Tizenegyedik"; u8 "Tizenkettedik"; u8 "Tizenharmadik"; u8 "Tizennegyedik"; u8 "Tizenötödik";
   u8 "Tizenhatodik"; u8 "Tizenhetedik"; u8 "Tizennyolcadik"; u8 "Tizenkilencedik"].
Definition g_hungarian_ordinal_capital : parser pystr := p_rule (p_toks g_capital_ordinals).
(* 352 *)
Definition g_dash : parser pystr := p_rule (p_toks [u8 "−"; u8 "–"; u8 "-"]).
(* 116 *)
Definition g_list_separator : parser pystr := p_rule (
      (p_opt (p_toks [u8 ","; u8 ";"]) ;~ p_toks [u8 "és"; u8 "valamint"; u8 "illetve"; u8 "vagy"])
  <|> p_tok (u8 ",") <|> p_tok (u8 ";")).
(* [list_separator [az]] *)
Definition g_separator : parser unit := p_opt (g_list_separator ;~ p_opt g_az) ;~ p_ret tt.

(* 114.  The depth of quotes is bounded by the length of the text *)
Fixpoint quote_loop (fuel : nat) (s : pystr) : option (g_quote * pystr) :=
  match fuel with
  | O => None
  | S fuel =>
      p_rule (
        a <~ p_tok (u8 "„") ;; b <~ p_re (RStar c_not_quote) ;;
        l <~ p_many (q <~ quote_loop fuel ;; r <~ p_re (RStar c_not_quote) ;; p_ret (Node [Node q; Leaf r])) ;;
        z <~ p_tok (u8 "”") ;;
        p_ret [Leaf a; Leaf b; Node l; Leaf z]) s
  end.
Definition g_quote_rule : parser g_quote := fun s => quote_loop (List.length s) s.

(* 112 *)
Definition g_abbreviation_rule : parser pystr := p_rule (
      p_re (RSeq (RSet c_capital) (RSeq (RPlus c_small) (RSeq (ROpt (N.eqb 46)) (RSeq (ROpt (N.eqb 32))
             (RAlt (RLit (u8 "tv.")) (RLit (u8 "vhr.")))))))
  <|> p_re (RSeq (RSet c_capital) (RSeq (RPlus c_small) (RLit (u8 "."))))).

(** * References *)

(* tokens as a list *)
Definition listed (o : option (list pystr)) : list pystr := match o with Some l => l | None => [] end.

(* 70: the group *)
Definition g_article_id_group : parser (list pystr) :=
  b <~ p_opt (n <~ g_number ;; c <~ p_tok (u8 ":") ;; p_ret [n; c]) ;;
  n <~ g_number ;;
  l <~ p_opt (c <~ p_tok (u8 "/") ;; x <~ p_re (RSet c_AZ) ;; p_ret [c; x]) ;;
  p_ret (listed b ++ [n] ++ listed l).
Definition g_article_id : parser (list pystr) := p_rule g_article_id_group.
(* 71, 82, 89, 96, 103, 110 *)
Definition g_article_suffix : parser pystr := p_rule (p_suffixed (u8 "§-") <|> p_tok (u8 "§")).
Definition g_paragraph_suffix : parser pystr := p_rule (p_suffixed (u8 "bekezdés") <|> p_tok (u8 "bekezdés")).
Definition g_point_suffix : parser pystr := p_rule (p_suffixed (u8 "pont") <|> p_tok (u8 "pont")).
Definition g_subpoint_suffix : parser pystr := p_rule (p_suffixed (u8 "alpont") <|> p_tok (u8 "alpont")).
(* 81, 88, 95, 102, 109 *)
Definition g_paragraph_id : parser (list pystr) := p_rule (
  n <~ g_number ;; l <~ p_opt (p_re (RSet c_az)) ;;
  p_ret (n :: match l with Some x => [x] | None => [] end)).
Definition g_alphabetic_point_id : parser (list pystr) :=
  p_rule (p_map (fun x => [x]) (p_tok (u8 "ny") <|> p_tok (u8 "sz") <|> p_re (RSet c_az))).
Definition g_numeric_point_id : parser (list pystr) := p_rule (
  n <~ g_number ;;
  l <~ p_opt (c <~ p_opt (p_tok (u8 "/")) ;; x <~ p_re (RSet c_az) ;;
              p_ret (match c with Some c => [c; x] | None => [x] end)) ;;
  p_ret (n :: listed l)).
Definition g_alphabetic_subpoint_id : parser (list pystr) :=
  p_rule (p_map (fun x => [x]) (p_re (RSeq (RSet c_az) (ROpt c_az)))).
Definition g_numeric_subpoint_id : parser (list pystr) := p_rule (p_map (fun x => [x]) g_number).

Section Positions.

(* the length of the whole text *)
Variable total : Z.
Definition pos_of (s : pystr) : Z := total - Z.of_nat (List.length s).
(* a rule with its parseinfo *)
Definition p_span {A} (p : parser A) : parser (A * span) := fun s =>
  match p (ws s) with
  | Some (x, r) => Some ((x, (pos_of (ws s), pos_of r)), r)
  | None => None
  end.

(* {(ranges+:range | singles+:single) [list_separator [az]]}+ suffix *)
Definition g_part_rule (t : part_type) (range : parser (list pystr * list pystr)) (single : parser (list pystr))
    (suffix : parser pystr) : parser g_part := p_rule (
  l <~ p_many1 (x <~ (p_map inl (p_span range) <|> p_map inr (p_span single)) ;; g_separator ;~ p_ret x) ;;
  suffix ;~
  p_ret (mk_gpart t
    (flat_map (fun x => match x with inr (i, sp) => [mk_gsingle i sp] | inl _ => [] end) l)
    (flat_map (fun x => match x with inl ((a, b), sp) => [mk_grange a b sp] | inr _ => [] end) l))).

(* 66-69 *)
Definition g_article_reference : parser g_part := g_part_rule PArticle
  (a <~ g_article_id ;; p_opt (p_tok (u8 ".") ;~ g_article_suffix) ;~ g_dash ;~
   b <~ g_article_id ;; p_tok (u8 ".") ;~ p_ret (a, b))
  (a <~ g_article_id ;; p_tok (u8 ".") ;~ p_ret a)
  g_article_suffix.
(* 77-80 *)
Definition g_paragraph_reference : parser g_part := g_part_rule PParagraph
  (p_tok (u8 "(") ;~ a <~ g_paragraph_id ;; p_tok (u8 ")") ;~ g_dash ;~
   p_tok (u8 "(") ;~ b <~ g_paragraph_id ;; p_tok (u8 ")") ;~ p_ret (a, b))
  (p_tok (u8 "(") ;~ a <~ g_paragraph_id ;; p_tok (u8 ")") ;~ p_ret a)
  g_paragraph_suffix.
(* 84-87 *)
Definition g_alphabetic_point_reference : parser g_part := g_part_rule PAlphabeticPoint
  (a <~ g_alphabetic_point_id ;; p_opt (p_tok (u8 ")")) ;~ g_dash ;~
   b <~ g_alphabetic_point_id ;; p_tok (u8 ")") ;~ p_ret (a, b))
  (a <~ g_alphabetic_point_id ;; p_tok (u8 ")") ;~ p_ret a)
  g_point_suffix.
(* 91-94 *)
Definition g_numeric_point_reference : parser g_part := g_part_rule PNumericPoint
  (a <~ g_numeric_point_id ;; g_dash ;~ b <~ g_numeric_point_id ;; p_tok (u8 ".") ;~ p_ret (a, b))
  (a <~ g_numeric_point_id ;; p_tok (u8 ".") ;~ p_ret a)
  g_point_suffix.
(* 98-101 *)
Definition g_alphabetic_subpoint_reference : parser g_part := g_part_rule PAlphabeticSubpoint
  (a <~ g_alphabetic_subpoint_id ;; p_tok (u8 ")") ;~ g_dash ;~
   b <~ g_alphabetic_subpoint_id ;; p_tok (u8 ")") ;~ p_ret (a, b))
  (a <~ g_alphabetic_subpoint_id ;; p_tok (u8 ")") ;~ p_ret a)
  g_subpoint_suffix.
(* 105-108 *)
Definition g_numeric_subpoint_reference : parser g_part := g_part_rule PNumericSubpoint
  (a <~ g_numeric_subpoint_id ;; g_dash ;~ b <~ g_numeric_subpoint_id ;; p_tok (u8 ".") ;~ p_ret (a, b))
  (a <~ g_numeric_subpoint_id ;; p_tok (u8 ".") ;~ p_ret a)
  g_subpoint_suffix.

Definition parts_of (o : option (list g_part)) : list g_part := match o with Some l => l | None => [] end.
(* 44-49: included with >, so they skip no white space of their own *)
Definition g_any_point : parser g_part := g_alphabetic_point_reference <|> g_numeric_point_reference.
Definition g_any_subpoint : parser g_part := g_alphabetic_subpoint_reference <|> g_numeric_subpoint_reference.
Definition ref_with_subpoint : parser (list g_part) := p_map (fun x => [x]) g_any_subpoint.
Definition ref_with_point : parser (list g_part) :=
  x <~ g_any_point ;; l <~ p_opt ref_with_subpoint ;; p_ret (x :: parts_of l).
Definition ref_with_paragraph : parser (list g_part) :=
  x <~ g_paragraph_reference ;; l <~ p_opt ref_with_point ;; p_ret (x :: parts_of l).
Definition ref_with_article_with_paragraph : parser (list g_part) :=
  x <~ g_article_reference ;; l <~ ref_with_paragraph ;; p_ret (x :: l).
Definition ref_with_article_no_paragraph : parser (list g_part) :=
  x <~ g_article_reference ;; l <~ p_opt ref_with_point ;; p_ret (x :: parts_of l).
Definition reference_of (p : parser (list g_part)) : parser g_reference :=
  p_map (fun x => mk_greference (fst x) (snd x)) (p_span p).
(* 51-57 *)
Definition g_reference_rule : parser g_reference := reference_of (
  ref_with_article_with_paragraph <|> ref_with_article_no_paragraph <|> ref_with_paragraph <|>
  ref_with_point <|> ref_with_subpoint).
(* {references+:reference [list_separator [az]]} *)
Definition g_listed_reference : parser g_reference := r <~ g_reference_rule ;; g_separator ;~ p_ret r.

(** * Acts *)

(* 64 *)
Definition g_act_suffix : parser pystr :=
  p_rule (p_tok (u8 "törvény") <|> p_suffixed (u8 "törvén") <|> p_tok (u8 "tv.")).
(* 63 *)
Definition g_act_id : parser (pystr * pystr * span) :=
  p_map (fun x => (fst (fst x), snd (fst x), snd x)) (p_span (
    y <~ g_number ;; p_tok (u8 ".") ;~ p_tok (u8 "évi") ;~ n <~ g_roman ;; p_tok (u8 ".") ;~ g_act_suffix ;~
    p_ret (y, n))).
(* 61 *)
Definition g_from_now_on : parser pystr := p_rule (
  p_tok (u8 "(") ;~ p_tok (u8 "a") ;~ p_tok (u8 "továbbiakban") ;~ p_opt (p_tok (u8 ":")) ;~
  x <~ g_abbreviation_rule ;; p_opt (p_tok (u8 "törvény")) ;~ p_tok (u8 ")") ;~ p_ret x).
(* 62 *)
Definition g_from_now_on_long : parser unit := p_rule (
  p_tok (u8 "(") ;~ p_tok (u8 "a") ;~ p_tok (u8 "továbbiakban") ;~ p_opt (p_tok (u8 ":")) ;~
  (p_map (fun _ => tt) g_act_id <|> p_map (fun _ => tt) (p_many1 g_word)) ;~ p_tok (u8 ")") ;~ p_ret tt).
(* 60 *)
Definition g_act_reference : parser g_act_ref := p_rule (
      (x <~ p_span g_abbreviation_rule ;; p_ret (mk_gactref None (Some x) None))
  <|> (x <~ g_act_id ;;
       f <~ p_opt (p_map Some g_from_now_on <|> p_map (fun _ => None) g_from_now_on_long) ;;
       p_ret (mk_gactref (Some x) None (match f with Some f => f | None => None end)))).
(* 42 *)
Definition g_compound_reference : parser g_tree := p_rule (
      (a <~ g_act_reference ;; l <~ p_many g_listed_reference ;;
       p_ret (GTree (GCompoundReference (Some a) l) [GTree (GActReference a) []]))
  <|> (r <~ g_reference_rule ;; p_ret (GTree (GCompoundReference None [r]) []))).
(* 35-40; of what has no converter only that it is there *)
Definition g_any_simple_expression : parser g_tree := p_rule (
      p_map (fun _ => GTree GOther []) g_quote_rule
  <|> g_compound_reference
  <|> p_map (fun _ => GTree GOther []) g_abbreviation_rule
  <|> p_map (fun _ => GTree GOther []) g_any_token).
(* 202-204 *)
Definition g_act_title : parser unit := p_rule (
  p_many (p_not (g_act_reference ;~ p_not (p_tok (u8 "hatálybalépésével összefüggő"))) ;~ g_any_token) ;~ p_ret tt).

(** * Structural references *)

(* id:(number [["/"] /[A-Z]/]) and id:(roman [["/"] /[A-Z]/]) *)
Definition g_id_with_letter (p : parser pystr) : parser (list pystr) :=
  n <~ p ;;
  l <~ p_opt (c <~ p_opt (p_tok (u8 "/")) ;; x <~ p_re (RSet c_AZ) ;;
              p_ret (match c with Some c => [c; x] | None => [x] end)) ;;
  p_ret (n :: listed l).
Definition g_suffix (w : pystr) : parser pystr := p_rule (p_suffixed w <|> p_tok w).
(* 120, 121 *)
Definition g_after_article : parser g_structural := p_rule (
  p_opt g_az ;~ i <~ g_article_id_group ;; p_tok (u8 ".") ;~ g_article_suffix ;~
  p_toks [u8 "követően"; u8 "követő"] ;~ p_ret (GAfterArticle i)).
Definition g_before_article : parser g_structural := p_rule (
  p_opt g_az ;~ i <~ g_article_id_group ;; p_tok (u8 ".") ;~ g_article_suffix ;~
  p_toks [u8 "megelőzően"; u8 "megelőző"] ;~ p_ret (GBeforeArticle i)).
(* 122 *)
Definition g_subtitle_title : parser g_structural := p_rule (
  t <~ (    p_map (fun q => GSubtitleTitle None (Some q)) g_quote_rule
        <|> p_map (fun l => GSubtitleTitle (Some l) None)
              (p_many (p_not (p_tok (u8 "alcíme")) ;~ p_not (p_tok (u8 "című")) ;~ g_any_token))) ;;
  p_opt (p_tok (u8 "című")) ;~ p_tok (u8 "alcíme") ;~ p_ret t).
(* 124-126 *)
Definition g_subtitle_number : parser g_structural := p_rule (
  i <~ g_id_with_letter g_number ;; p_tok (u8 ".") ;~ g_suffix (u8 "alcím") ;~ p_ret (GSubtitleNumber i)).
(* 128-130 *)
Definition g_chapter_number : parser g_structural := p_rule (
  i <~ g_id_with_letter g_roman ;; p_tok (u8 ".") ;~ g_suffix (u8 "Fejezet") ;~ p_ret (GChapterNumber i)).
(* [book_id:hungarian_ordinal_capital "Könyv"] *)
Definition g_book : parser (option pystr) :=
  p_opt (b <~ g_hungarian_ordinal_capital ;; p_tok (u8 "Könyv") ;~ p_ret b).
(* 132-135 *)
Definition g_part_number : parser g_structural := p_rule (
  b <~ g_book ;; i <~ g_hungarian_ordinal_capital ;; g_suffix (u8 "Rész") ;~ p_ret (GPartNumber b i)).
(* 137-140 *)
Definition g_title_number : parser g_structural := p_rule (
  b <~ g_book ;; i <~ g_id_with_letter g_roman ;; p_tok (u8 ".") ;~ g_suffix (u8 "Cím") ;~ p_ret (GTitleNumber b i)).
(* 142-148 *)
Definition g_any_structural_reference : parser g_structural := p_rule (
  g_subtitle_number <|> g_subtitle_title <|> g_chapter_number <|> g_part_number <|> g_title_number).
(* 193-197, included with > *)
Definition g_structural_position : parser g_structural :=
      (p_opt g_chapter_number ;~ g_after_article)
  <|> (p_opt g_chapter_number ;~ g_before_article)
  <|> (g_subtitle_number <|> g_subtitle_title <|> g_chapter_number <|> g_part_number <|> g_title_number).

(** * Block amendments *)

(* 153 *)
Definition g_insertion_token : parser pystr := p_rule (p_tok (u8 "a következő")).
(* an article and what may stand in its place *)
Definition g_az_article : parser g_part := p_opt g_az ;~ g_article_reference.
Definition one_part (p : parser g_part) : parser (list g_part) := p_map (fun x => [x]) p.
Definition g_article_and_paragraph (p : parser g_part) : parser (list g_part) :=
  a <~ p ;; l <~ p_opt (one_part g_paragraph_reference) ;; p_ret (a :: parts_of l).
(* 155-160 *)
Definition g_insertion_reference : parser g_reference := reference_of (
      (g_insertion_token ;~ g_article_and_paragraph g_article_reference)
  <|> (a <~ p_opt (one_part g_az_article <|> p_map (fun _ => []) (p_tok (u8 "a §"))) ;;
       g_insertion_token ;~ x <~ g_paragraph_reference ;; p_ret (parts_of a ++ [x]))
  <|> (a <~ p_opt (g_article_and_paragraph g_az_article <|> p_map (fun _ => []) (p_tok (u8 "a §"))
                   <|> p_map (fun _ => []) (p_tok (u8 "a bekezdés"))) ;;
       g_insertion_token ;~ x <~ g_any_point ;; p_ret (parts_of a ++ [x]))
  <|> (a <~ g_article_and_paragraph g_az_article ;; x <~ g_any_point ;; g_insertion_token ;~
       y <~ g_any_subpoint ;; p_ret (a ++ [x; y]))).
(* 162-165 *)
Definition g_title_insertion_with_book : parser g_structural := p_rule (
  b <~ g_hungarian_ordinal_capital ;; p_tok (u8 "Könyve") ;~ g_insertion_token ;~
  i <~ g_id_with_letter g_roman ;; p_tok (u8 ".") ;~ g_suffix (u8 "Cím") ;~ p_ret (GTitleNumber (Some b) i)).
(* 167 *)
Definition g_subtitle_token : parser unit := p_rule (
      p_map (fun _ => tt) (p_toks [u8 "alcímmel"; u8 "alcímekkel"; u8 "alcím-megjelölése"; u8 "alcím-megjelölés"; u8 "alcíme"])
  <|> (p_tok (u8 "alcím") ;~ p_opt (p_re (RSeq (RStar (N.eqb 32)) (RSeq (RLit (u8 "cím")) (RStar c_small)))) ;~ p_ret tt)).
(* 169-173 *)
Definition g_reference_with_subtitle : parser g_reference := reference_of (
      (g_subtitle_token ;~ p_tok (u8 "és") ;~ one_part g_article_reference)
  <|> (x <~ g_article_reference ;; p_tok (u8 "és") ;~ g_az ;~ p_opt (p_toks [u8 "azt"; u8 "azokat"]) ;~
       p_tok (u8 "megelőző") ;~ g_subtitle_token ;~ p_ret [x])
  <|> p_map (fun _ => []) g_subtitle_token).
(* 175-178 *)
Definition g_amendment_suffix : parser pystr := p_rule (
      (p_tok (u8 "helyébe a következő") ;~ p_toks [u8 "rendelkezés lép"; u8 "rendelkezések lépnek"])
  <|> p_tok (u8 "a következő szöveggel lép hatályba")).
(* 180-182 *)
Definition g_amendment_suffix_with_subtitle : parser pystr := p_rule (
  p_tok (u8 "helyébe a következő") ;~ p_opt (p_tok (u8 "rendelkezés és")) ;~ p_tok (u8 "alcím") ;~
  p_opt (p_tok (u8 "és rendelkezés")) ;~ p_toks [u8 "lép"; u8 "lépnek"]).
(* 184-186 *)
Definition g_amendment_suffix_with_structural : parser pystr := p_rule (
  p_tok (u8 "helyébe a következő") ;~ p_opt (p_toks [u8 "cím"; u8 "fejezet"; u8 "rész"]) ;~ p_tok (u8 "lép")).
(* 188-191 *)
Definition g_insertion_suffix : parser pystr := p_rule (p_toks [u8 "egészül ki"; u8 "kiegészülve lép hatályba"]).

(* /[Aa]z?/ act_title act_reference:act_reference *)
Definition g_upper_or_lower_az : parser pystr := p_re (RSeq (RSet (in_str (u8 "Aa"))) (ROpt (N.eqb 122))).
Definition g_the_act : parser g_act_ref := g_upper_or_lower_az ;~ g_act_title ;~ g_act_reference.
Definition node_with_act (n : g_act_ref -> g_node) (a : g_act_ref) : g_tree := GTree (n a) [GTree (GActReference a) []].
(* 206-213 *)
Definition g_block_amendment : parser g_tree := p_rule (
  a <~ g_the_act ;; p_opt g_structural_position ;~
  p_map (fun x => node_with_act (fun a => GBlockAmendment a (fst x) (snd x)) a) (
        (x <~ g_reference_rule ;; g_amendment_suffix ;~ p_tok (u8 ":") ;~ p_ret (Some x, None))
    <|> (x <~ g_insertion_reference ;; g_insertion_suffix ;~ p_tok (u8 ":") ;~ p_ret (None, Some x))
    <|> (x <~ g_reference_rule ;; g_amendment_suffix ;~ p_opt (p_tok (u8 ",")) ;~
         p_toks [u8 "és"; u8 "valamint"; u8 "egyidejűleg"] ;~
         y <~ g_insertion_reference ;; g_insertion_suffix ;~ p_tok (u8 ":") ;~ p_ret (Some x, Some y)))).
(* 215-221 *)
Definition g_block_amendment_with_subtitle : parser g_tree := p_rule (
  a <~ g_the_act ;; st <~ p_opt g_structural_position ;;
  p_map (fun x => node_with_act (fun a => GBlockAmendmentWithSubtitle a st (fst x) (snd x)) a) (
        (x <~ g_reference_with_subtitle ;; g_amendment_suffix ;~ p_tok (u8 ":") ;~ p_ret (Some x, None))
    <|> (x <~ g_reference_with_subtitle ;; g_amendment_suffix_with_subtitle ;~ p_tok (u8 ":") ;~ p_ret (Some x, None))
    <|> (g_insertion_token ;~ x <~ g_reference_with_subtitle ;; g_insertion_suffix ;~ p_tok (u8 ":") ;~
         p_ret (None, Some x)))).
(* 223-231 *)
Definition g_block_amendment_structural : parser g_tree := p_rule (
  a <~ g_the_act ;;
  p_map (fun x => node_with_act (fun a => GBlockAmendmentStructural a (fst x) (snd x)) a) (
        (x <~ g_any_structural_reference ;; g_amendment_suffix ;~ p_tok (u8 ":") ;~ p_ret (Some x, None))
    <|> (x <~ g_any_structural_reference ;; g_amendment_suffix_with_structural ;~ p_tok (u8 ":") ;~ p_ret (Some x, None))
    <|> (g_insertion_token ;~ x <~ g_any_structural_reference ;; g_insertion_suffix ;~ p_tok (u8 ":") ;~
         p_ret (None, Some x))
    <|> (x <~ g_title_insertion_with_book ;; g_insertion_suffix ;~ p_tok (u8 ":") ;~ p_ret (None, Some x)))).

(** * Enforcement dates *)

(* 333-335 *)
Definition g_date_rule : parser g_date := p_rule (
  y <~ g_number ;; p_tok (u8 ".") ;~ m <~ g_month ;; d <~ g_number ;;
  p_toks [u8 "-án"; u8 "-jén"; u8 "-én"; u8 ". napján"] ;~ p_ret (mk_gdate y m d)).
(* ["a" | "e törvény"] ("kihirdetését"| "kihirdetést") "követő" *)
Definition g_after_proclamation : parser unit :=
  p_opt (p_toks [u8 "a"; u8 "e törvény"]) ;~ p_toks [u8 "kihirdetését"; u8 "kihirdetést"] ;~
  p_tok (u8 "követő") ;~ p_ret tt.
(* 236-241 *)
Definition g_after_publication : parser g_after := p_rule (
  g_after_proclamation ;~
  x <~ p_opt (p_map (fun t => mk_gafter None (Some t)) g_hungarian_ordinal
          <|> p_map (fun n => mk_gafter (Some n) None) g_number_with_dot) ;;
  p_tok (u8 "napon") ;~
  p_ret (match x with Some x => x | None => mk_gafter None None end)).
(* 243-250 *)
Definition g_day_in_month : parser g_day := p_rule (
  g_after_proclamation ;~
  m <~ p_opt g_hungarian_ordinal ;; p_tok (u8 "hónap") ;~
  d <~ (    p_map (fun t => mk_gday m None (Some t)) g_hungarian_ordinal
        <|> p_map (fun n => mk_gday m (Some n) None) g_number_with_dot) ;;
  p_tok (u8 "napján") ;~ p_ret d).
(* 252-257 *)
Definition g_inline_repeal : parser g_date := p_rule (
  p_tok (u8 ", és") ;~ p_opt (p_toks [u8 "e"; u8 "ez a"] ;~ p_tok (u8 "törvény")) ;~
  d <~ g_date_rule ;; p_opt (p_tok (u8 "a")) ;~ p_tok (u8 "hatályát veszti") ;~ p_ret d).
(* 259-274 *)
Definition g_enforcement_date : parser g_tree := p_rule (
  ((p_toks [u8 "E"; u8 "Ez a"] ;~ p_tok (u8 "törvény")) <|> p_re (RSeq (RLit (u8 "A")) (ROpt (N.eqb 122)))) ;~
  e <~ p_opt (g_dash ;~ p_tok (u8 "a") ;~ r <~ g_reference_rule ;;
              p_toks [u8 "foglalt"; u8 "foglaltak"; u8 "meghatározott"] ;~
              p_toks [u8 "kivétellel"; u8 "kivételével"; u8 "kivételekkel"] ;~ g_dash ;~ p_ret r) ;;
  l <~ p_many g_listed_reference ;;
  d <~ (    p_map (fun d => (Some d, None, None)) g_date_rule
        <|> p_map (fun d => (None, Some d, None)) g_after_publication
        <|> p_map (fun d => (None, None, Some d)) g_day_in_month) ;;
  p_tok (u8 "lép hatályba") ;~ r <~ p_opt g_inline_repeal ;; p_tok (u8 ".") ;~
  let '(ex, af, dm) := d in
  p_ret (GTree (GEnforcementDate l (match e with Some e => [e] | None => [] end) ex af dm r) [])).

(** * Text amendments, title amendments, repeals *)

(* ("szövegrészek"| "szövegrész") ("helyébe" | "helyett") between two quotes *)
Definition g_replaced : parser (g_quote * g_quote) :=
  p_opt g_az ;~ x <~ g_quote_rule ;; p_toks [u8 "szövegrészek"; u8 "szövegrész"] ;~
  p_toks [u8 "helyébe"; u8 "helyett"] ;~ p_opt g_az ;~ y <~ g_quote_rule ;; p_ret (x, y).
(* "lép" ["hatályba"] "." *)
Definition g_enters : parser unit := p_tok (u8 "lép") ;~ p_opt (p_tok (u8 "hatályba")) ;~ p_tok (u8 ".") ;~ p_ret tt.
(* 285-290 *)
Definition g_text_amendment_part : parser (g_quote * g_quote) := p_rule (
  x <~ g_replaced ;;
  (p_and g_list_separator <|> p_map (fun _ => tt) (p_toks [u8 "szöveggel"; u8 "szöveg"; u8 "szövegrész"])) ;~ p_ret x).
(* 278-283 *)
Definition g_text_amendment : parser g_tree := p_rule (
  a <~ g_the_act ;; l <~ p_many1 g_listed_reference ;;
  t <~ p_many1 (x <~ g_text_amendment_part ;; g_separator ;~ p_ret x) ;; g_enters ;~
  p_ret (node_with_act (fun a => GTextAmendment a l t) a)).
(* 73-75 *)
Definition g_single_article_reference : parser (list pystr * span) :=
  p_span (i <~ g_article_id_group ;; p_tok (u8 ".") ;~ g_article_suffix ;~ p_ret i).
(* 292-302 *)
Definition g_article_title_amendment : parser g_tree := p_rule (
  a <~ g_the_act ;; i <~ g_single_article_reference ;; p_rule (p_suffixed (u8 "cím")) ;~
  q <~ g_replaced ;; p_toks [u8 "szöveggel"; u8 "szöveg"; u8 "szövegrész"] ;~ g_enters ;~
  p_ret (node_with_act (fun a => GArticleTitleAmendment a (fst i) (snd i) (fst q) (snd q)) a)).
(* ("Nem lép hatályba" | "Hatályát veszti") az act_title act_reference:act_reference *)
Definition g_repealed_act : parser g_act_ref :=
  p_toks [u8 "Nem lép hatályba"; u8 "Hatályát veszti"] ;~ g_az ;~ g_act_title ;~ g_act_reference.
(* 306-312 *)
Definition g_repeal : parser g_tree := p_rule (
  a <~ g_repealed_act ;; l <~ p_many1 g_listed_reference ;;
  t <~ p_many (p_opt g_az ;~ q <~ g_quote_rule ;; p_opt (p_tok (u8 "szövegrész")) ;~ g_separator ;~ p_ret q) ;;
  p_tok (u8 ".") ;~
  p_ret (node_with_act (fun a => GSimpleRepeal a l t) a)).
(* 314-319 *)
Definition g_structural_repeal : parser g_tree := p_rule (
  a <~ g_repealed_act ;; st <~ g_structural_position ;; p_opt g_subtitle_token ;~ p_tok (u8 ".") ;~
  p_ret (node_with_act (fun a => GStructuralRepeal a st) a)).

(* 22-31 *)
Definition to_the_end {A} (p : parser A) : parser A := x <~ p ;; p_eof ;~ p_ret x.
Definition g_start : parser g_tree := p_rule (
      to_the_end g_block_amendment
  <|> to_the_end g_block_amendment_with_subtitle
  <|> to_the_end g_block_amendment_structural
  <|> to_the_end g_text_amendment
  <|> to_the_end g_article_title_amendment
  <|> to_the_end g_enforcement_date
  <|> to_the_end g_repeal
  <|> to_the_end g_structural_repeal
  <|> p_map (GTree GOther) (to_the_end (p_many1 g_any_simple_expression))).

End Positions.

(* ActGrammarParser.parse(s, rule_name='start_default') (grammatical_analyzer.py:720-724) *)
Definition grammar_parse (s : pystr) : option g_tree :=
  match g_start (Z.of_nat (List.length s)) s with
  | Some (t, _) => Some t
  | None => None
  end.
(* grammatical_analyzer.py:718-729 *)
Definition grammar_analyzer : analyzer := analyzer_of grammar_parse.
