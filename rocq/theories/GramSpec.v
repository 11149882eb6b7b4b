(* Independent specification of what the converters of the grammatical analyser produce. *)
From Verif Require Import PyBase PyBaseFacts NumModel IdModel NumSpec LineSpec DateModel DateSpec IdSpec RefModel RefSpec TreeModel StructModel StructSpec SemModel GramModel.
Local Open Scope Z_scope.

(** * The collector *)

(* One call of add_item *)
Record addition := mk_add { ad_type : part_type; ad_data : rpart; ad_start : Z; ad_end : Z }.
Fixpoint add_all (c : collector) (l : list addition) : res collector :=
  match l with
  | [] => Ok c
  | x :: t => c <- add_item c (ad_type x) (ad_data x) (ad_start x) (ad_end x) ;; add_all c t
  end.
(* The calls made for a parsed reference: in each part the single identifiers, then the ranges *)
Definition additions_of_part (p : g_part) : list addition :=
  map (fun s => mk_add (gp_type p) (RId (concat (gs_id s))) (fst (gs_span s)) (snd (gs_span s))) (gp_singles p) ++
  map (fun r => mk_add (gp_type p) (RRange (concat (gg_start r)) (concat (gg_end r))) (fst (gg_span r)) (snd (gg_span r))) (gp_ranges p).
Definition additions_of (r : g_reference) : list addition := flat_map additions_of_part (gr_parts r).

(* the position of a component in a reference; 0 is the act *)
Definition level_of (t : part_type) : nat :=
  match t with
  | PArticle => 1
  | PParagraph => 2
  | PAlphabeticPoint | PNumericPoint => 3
  | PAlphabeticSubpoint | PNumericSubpoint => 4
  end.

(* two identifiers of the same kind, the second the one after the first *)
Definition follows (x y : addition) : Prop :=
  ad_type x = ad_type y /\
  exists is_next a b, part_is_next (ad_type x) = Some is_next /\ ad_data x = RId a /\ ad_data y = RId b /\ is_next a b = Ok true.
Definition merged (x y : addition) (a b : pystr) : addition := mk_add (ad_type x) (RRange a b) (ad_start x) (ad_end y).

(* Pairs of consecutive identifiers become ranges; each identifier is in one pair at most. *)
Inductive grouped : list addition -> list addition -> Prop :=
| gr_nil : grouped [] []
| gr_one x l out : (forall y t, l = y :: t -> ~ follows x y) -> grouped l out -> grouped (x :: l) (x :: out)
| gr_two x y a b l out : follows x y -> ad_data x = RId a -> ad_data y = RId b -> grouped l out ->
    grouped (x :: y :: l) (merged x y a b :: out).

(* what a component says about an added item *)
Definition mentions (component data : rpart) : Prop :=
  component = data \/ exists a b, component = RRange a b /\ (data = RId a \/ data = RId b).

Definition at_level (k : nat) (l : list addition) : list addition := filter (fun x => (level_of (ad_type x) =? k)%nat) l.

(* an item that says something *)
Definition real (x : addition) : Prop := ad_data x <> RNone.
Definition no_parts (act : option pystr) : reference := mk_ref act RNone RNone RNone RNone.
(* a component at a level: nothing, an item, or a range made of two consecutive ones *)
Definition comes_from (l : list addition) (k : nat) (v : rpart) : Prop :=
  v = RNone \/ (exists x, In x l /\ level_of (ad_type x) = k /\ v = ad_data x) \/
  exists l1 x z a b l2, l = l1 ++ x :: z :: l2 /\ follows x z /\ level_of (ad_type x) = k /\
    ad_data x = RId a /\ ad_data z = RId b /\ v = RRange a b.

(* spans that follow each other between two positions *)
Inductive in_order : Z -> Z -> list outgoing_reference -> Prop :=
| io_nil s e : s <= e -> in_order s e []
| io_cons s e o l : s <= or_start o -> or_start o < or_end o -> in_order (or_end o) e l -> in_order s e (o :: l).

(* items that do not overlap, larger units first *)
Definition apart (x y : addition) : Prop :=
  (ad_end x <= ad_start y /\ (level_of (ad_type x) <= level_of (ad_type y))%nat) \/
  (ad_end y <= ad_start x /\ (level_of (ad_type y) <= level_of (ad_type x))%nat).
(* items of a text from [s] to [e]; no third item stands between two that are made into a range *)
Definition well_placed (s e : Z) (l : list addition) : Prop :=
  Forall (fun x => s <= ad_start x /\ ad_start x < ad_end x /\ ad_end x <= e) l /\
  ForallOrdPairs apart l /\
  forall l1 x y l2, l = l1 ++ x :: y :: l2 -> follows x y ->
    ad_end x <= ad_start y /\ Forall (fun z => ~ (ad_end x <= ad_start z /\ ad_end z <= ad_start y)) (l1 ++ l2).

(** * Converters *)

(* children before their parents, from left to right *)
Fixpoint post_order (t : g_tree) : list g_node :=
  match t with GTree n cs => flat_map post_order cs ++ [n] end.

(* References read one after another: what a reference leaves out above its first given level is
   taken from the one before it. *)
Definition completed (own last r : reference) : Prop :=
  (own = EMPTY_REF -> r = last) /\
  forall i, first_level own i -> forall j, nth_part r j = if (i <=? j)%nat then nth_part own j else nth_part last j.
Inductive chained : reference -> list outgoing_reference -> list outgoing_reference -> Prop :=
| ch_nil last : chained last [] []
| ch_cons last o r l l' : completed (or_reference o) last r -> chained r l l' ->
    chained last (o :: l) (mk_outgoing (or_start o) (or_end o) r :: l').

(* spans of a parse tree that are not empty *)
Definition span_ok (s : span) : Prop := fst s < snd s.
Definition reference_ok (r : g_reference) : Prop :=
  span_ok (gr_span r) /\ well_placed (fst (gr_span r)) (snd (gr_span r)) (additions_of r).
Definition act_ref_ok (a : g_act_ref) : Prop :=
  (forall y n s, ga_act_id a = Some (y, n, s) -> span_ok s) /\ (forall x s, ga_abbreviation a = Some (x, s) -> span_ok s).
Definition opt_ok {A} (P : A -> Prop) (x : option A) : Prop := forall y, x = Some y -> P y.
Definition node_ok (n : g_node) : Prop :=
  match n with
  | GCompoundReference a refs => opt_ok act_ref_ok a /\ Forall reference_ok refs
  | GActReference a => act_ref_ok a
  | GBlockAmendment a am ins => act_ref_ok a /\ opt_ok reference_ok am /\ opt_ok reference_ok ins
  | GBlockAmendmentWithSubtitle a _ _ _ | GBlockAmendmentStructural a _ _ => act_ref_ok a
  | GEnforcementDate refs exc _ _ _ _ => Forall reference_ok refs /\ Forall reference_ok exc
  | GTextAmendment a refs _ => act_ref_ok a /\ Forall reference_ok refs
  | GArticleTitleAmendment a _ sp _ _ => act_ref_ok a /\ span_ok sp
  | GSimpleRepeal a refs _ => act_ref_ok a /\ Forall reference_ok refs
  | GStructuralRepeal a _ => act_ref_ok a
  | GOther => True
  end.

(* a quote: what is between the quotation marks, without surrounding whitespace *)
Definition quote_says (q : g_quote) (s : pystr) : Prop :=
  exists inner, q = Leaf (u8 "„") :: inner ++ [Leaf (u8 "”")] /\ s = str_strip (concat (flat_map leaves inner)).

(* a reference to an act as a whole *)
Definition names_act_only (o : outgoing_reference) : Prop := exists act, or_reference o = no_parts (Some act).
(* [picks P l a b]: a has the elements of l with P, b the others, in the order of l *)
Inductive picks {A} (P : A -> Prop) : list A -> list A -> list A -> Prop :=
| pk_nil : picks P [] [] []
| pk_in x l a b : P x -> picks P l a b -> picks P (x :: l) (x :: a) b
| pk_out x l a b : ~ P x -> picks P l a b -> picks P (x :: l) a (x :: b).

(* dates of the grammar: year and day are decimal numerals, the month is the m-th month name *)
Definition date_written (g : g_date) (y m d : Z) : Prop :=
  numeral (gd_year g) y /\ numeral (gd_day g) d /\ 1 <= m <= 12 /\ gd_month g = nth (Z.to_nat (m - 1)) month_names [].
(* [number] or [text] spells n *)
Inductive count_written : option pystr -> option pystr -> Z -> Prop :=
| cw_number s t n : numeral s n -> count_written (Some s) t n
| cw_text s n : s <> [] -> ordinal_of n s -> count_written None (Some s) n.
(* grammar.ebnf: hungarian_ordinal *)
Definition grammar_ordinals : list (pystr * Z) :=
  [(u8 "első", 1); (u8 "második", 2); (u8 "harmadik", 3); (u8 "negyedik", 4); (u8 "ötödik", 5);
   (u8 "hatodik", 6); (u8 "hetedik", 7); (u8 "nyolcadik", 8); (u8 "kilencedik", 9); (u8 "tizedik", 10);
   (u8 "tizenegyedik", 11); (u8 "tizenkettedik", 12); (u8 "tizenharmadik", 13); (u8 "tizennegyedik", 14);
   (u8 "tizenötödik", 15); (u8 "tizenhatodik", 16); (u8 "tizenhetedik", 17); (u8 "tizennyolcadik", 18);
   (u8 "tizenkilencedik", 19); (u8 "huszadik", 20); (u8 "harmincadik", 30); (u8 "negyvenedik", 40);
   (u8 "ötvenedik", 50); (u8 "hatvanadik", 60); (u8 "hetvenedik", 70); (u8 "nyolcvanadik", 80);
   (u8 "kilencvenedik", 90)].
