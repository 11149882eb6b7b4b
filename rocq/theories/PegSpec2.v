(* Independent specification of how references are written. *)
From Verif Require Import PyBase NumModel IdModel RefModel RefSpec TreeModel SemModel GramModel GramSpec PegSpec.
Local Open Scope Z_scope.

(** * Parts *)

(* what may be appended to a word *)
Definition ending (e : pystr) : Prop := Forall hun_small e.
(* §, §-a *)
Definition sign_ending (e : pystr) : Prop := e = [] \/ exists l, e = 45%N :: l /\ l <> [] /\ Forall hun_small l.
Definition is_dash (d : N) : Prop := In d (u8 "−–-").
(* b, ny, sz *)
Definition letter_shape (i : pystr) : Prop := (exists c, i = [c] /\ is_small c) \/ i = u8 "ny" \/ i = u8 "sz".
(* 5, 5a, 5/a *)
Inductive point_number : pystr -> Prop :=
| pn_plain n : digits n -> point_number n
| pn_letter n c : digits n -> is_small c -> point_number (n ++ [c])
| pn_slash n c : digits n -> is_small c -> point_number (n ++ [47%N; c]).
(* b, ba *)
Definition sub_letter (i : pystr) : Prop := exists c l, i = c :: l /\ is_small c /\ maybe is_small l.

(* an identifier of a part *)
Definition part_id (t : part_type) (i : pystr) : Prop :=
  match t with
  | PArticle => article_shape i
  | PParagraph => paragraph_shape i
  | PAlphabeticPoint => letter_shape i
  | PNumericPoint => point_number i
  | PAlphabeticSubpoint => sub_letter i
  | PNumericSubpoint => digits i
  end.
(* (1), 1., a) *)
Definition one_text (t : part_type) (i : pystr) : pystr :=
  match t with
  | PParagraph => u8 "(" ++ i ++ u8 ")"
  | PAlphabeticPoint | PAlphabeticSubpoint => i ++ u8 ")"
  | _ => i ++ u8 "."
  end.
(* (1)–(3), 1–3., a)–c) *)
Definition range_text (t : part_type) (i : pystr) (d : N) (j : pystr) : pystr :=
  match t with
  | PParagraph => u8 "(" ++ i ++ u8 ")" ++ [d] ++ u8 "(" ++ j ++ u8 ")"
  | PAlphabeticPoint | PAlphabeticSubpoint => i ++ u8 ")" ++ [d] ++ j ++ u8 ")"
  | _ => i ++ [d] ++ j ++ u8 "."
  end.
Definition unit_text (t : part_type) : pystr :=
  match t with
  | PArticle => u8 "§"
  | PParagraph => u8 "bekezdés"
  | PAlphabeticPoint | PNumericPoint => u8 "pont"
  | PAlphabeticSubpoint | PNumericSubpoint => u8 "alpont"
  end.
Definition unit_ending (t : part_type) (e : pystr) : Prop := match t with PArticle => sign_ending e | _ => ending e end.
Inductive item_written (t : part_type) : rpart -> pystr -> Prop :=
| iw_one i : part_id t i -> item_written t (RId i) (one_text t i)
| iw_range i d j : part_id t i -> part_id t j -> is_dash d -> item_written t (RRange i j) (range_text t i d j).
(* 3. §, (1)–(3) bekezdésében, a) pontja *)
Definition part_written (t : part_type) (p : rpart) (w : pystr) : Prop :=
  exists x e, item_written t p x /\ unit_ending t e /\ w = x ++ u8 " " ++ unit_text t ++ e.

(** * References *)

(* a part with a space before it, or nothing *)
Definition level_written (k : nat) (p : rpart) (w : pystr) : Prop :=
  (p = RNone /\ w = []) \/ exists t x, level_of t = k /\ part_written t p x /\ w = u8 " " ++ x.
(* a subpoint comes after a point or stands alone *)
Definition reference_written (r : reference) (w : pystr) : Prop :=
  exists a p q s, level_written 1 (r_article r) a /\ level_written 2 (r_paragraph r) p /\ level_written 3 (r_point r) q /\
    level_written 4 (r_subpoint r) s /\ a ++ p ++ q ++ s = u8 " " ++ w /\ (s = [] \/ q <> [] \/ (a = [] /\ p = [])).

(** * Sentences *)

(* words without numbers, brackets, colons, quotes, dashes and abbreviations *)
Definition word_chr (c : N) : Prop := ~ (48 <= c <= 57)%N /\ ~ In c (u8 "():„−–-").
Definition words (u : pystr) : Prop := Forall word_chr u /\ forall x, abbreviation_shape x -> ~ has u x.
(* nothing, or something that ends with white space *)
Definition spaced (u : pystr) : Prop := u = [] \/ exists u' c, u = u' ++ [c] /\ isspace_chr c = true.
(* what may come right after a reference *)
Definition breaks (s : pystr) : Prop := match s with [] => True | c :: _ => isspace_chr c = true \/ In c (u8 ".,;") end.
Definition size (s : pystr) : Z := Z.of_nat (length s).

(** * Acts *)

(* Ptk. *)
Definition short_name (x : pystr) : Prop := exists c w, x = c :: w ++ u8 "." /\ hun_capital c /\ w <> [] /\ Forall hun_small w.
(* the identifier, the text, what follows it and the abbreviation that is introduced:
   Ptk., 2013. évi V. törvényben, 2013. évi V. törvény (a továbbiakban: Ptk.) *)
Inductive act_written : pystr -> pystr -> pystr -> list act_id_abbreviation -> Prop :=
| aw_short x : short_name x -> act_written x x [] []
| aw_number y n e : digits y -> roman_letters n -> ending e ->
    act_written (y ++ u8 ". évi " ++ n ++ u8 ". törvény") (y ++ u8 ". évi " ++ n ++ u8 ". törvény" ++ e) [] []
| aw_from_now_on y n e x : digits y -> roman_letters n -> ending e -> short_name x ->
    act_written (y ++ u8 ". évi " ++ n ++ u8 ". törvény") (y ++ u8 ". évi " ++ n ++ u8 ". törvény" ++ e)
      (u8 " (a továbbiakban: " ++ x ++ u8 ")") [mk_abbreviation x (y ++ u8 ". évi " ++ n ++ u8 ". törvény")].
(* what separates references in a list: ", ", " és a " *)
Definition separator (p : pystr) : Prop :=
  exists x a, In x [u8 ","; u8 ";"; u8 " és"; u8 " valamint"; u8 " illetve"; u8 " vagy"; u8 ", és"; u8 ", valamint"; u8 ", illetve"; u8 ", vagy"] /\
    In a [u8 ""; u8 "a "; u8 "az "] /\ p = x ++ u8 " " ++ a.
(* references of an act, the first character being the k-th *)
Inductive listed_written (act : pystr) : Z -> pystr -> list outgoing_reference -> Prop :=
| lw_last k r w : r_act r = Some act -> reference_written r w -> listed_written act k w [mk_outgoing k (k + size w) r]
| lw_more k r w p s l : r_act r = Some act -> reference_written r w -> separator p -> listed_written act (k + size w + size p) s l ->
    listed_written act k (w ++ p ++ s) (mk_outgoing k (k + size w) r :: l).
(* an act and its references; the text after it begins at the second position *)
Inductive act_and_written : Z -> pystr -> list outgoing_reference -> list act_id_abbreviation -> Prop :=
| ar_alone k a x y l : act_written a x y l -> act_and_written k (x ++ y) [mk_outgoing k (k + size x) (mk_ref (Some a) RNone RNone RNone RNone)] l
| ar_listed k a x y l s refs : act_written a x y l -> listed_written a (k + size x + size y + 1) s refs ->
    act_and_written k (x ++ y ++ u8 " " ++ s) (mk_outgoing k (k + size x) (mk_ref (Some a) RNone RNone RNone RNone) :: refs) l.

(** * Words and references *)

(* after white space *)
Definition starts_with (u x : pystr) : Prop := exists z v, u = z ++ x ++ v /\ Forall (fun c => isspace_chr c = true) z.
Inductive before := Nothing | Reference | Act.
(* words that can stand between two references: after an act they do not begin with a separator *)
Definition between (b : before) (u : pystr) : Prop :=
  match b with
  | Nothing => True
  | Reference => breaks u /\ visible u
  | Act => breaks u /\ visible u /\
      Forall (fun x => ~ starts_with u x) [u8 ","; u8 ";"; u8 "és"; u8 "valamint"; u8 "illetve"; u8 "vagy"; u8 "tv."; u8 "vhr."]
  end.
(* the same at the end *)
Definition after (b : before) (v : pystr) : Prop :=
  match b with
  | Nothing => True
  | Reference => breaks v
  | Act => breaks v /\ Forall (fun x => ~ starts_with v x) [u8 "tv."; u8 "vhr."]
  end.
(* the first character is the k-th *)
Inductive told : before -> Z -> pystr -> list outgoing_reference -> list act_id_abbreviation -> Prop :=
| told_words b k v : words v -> after b v -> told b k v [] []
| told_reference b k u r w s l m : words u -> spaced u -> between b u -> r_act r = None -> reference_written r w ->
    told Reference (k + size u + size w) s l m ->
    told b k (u ++ w ++ s) (mk_outgoing (k + size u) (k + size u + size w) r :: l) m
| told_act b k u w s l l' m m' : words u -> spaced u -> between b u -> act_and_written (k + size u) w l m ->
    told Act (k + size u + size w) s l' m' ->
    told b k (u ++ w ++ s) (l ++ l') (m ++ m').
(* a sentence that is no amendment, no repeal and does not say when an act enters into force *)
Definition ordinary (text : pystr) : Prop :=
  ~ ends_in_colon text /\ ~ In 8222%N text /\ ~ has text (u8 "lép hatályba") /\ ~ has text (u8 "Hatályát veszti").
