(* Independent specification of how a law is written: lines, what they amend, and what their sentences say (C74). *)
From Coq Require Import Permutation Sorted.
From Verif Require Import PyBase PyBaseFacts NumModel NumSpec IdModel IdSpec LineModel LineSpec DateModel RefModel RefSpec TreeModel TreeSpec SemModel GramModel GramSpec
  PegModel PegSpec PegSpec2 PegSpec3 PegSpec4 PegSpec5 SemSpec StructModel StructSpec LayoutSpec BodySpec.
Local Open Scope Z_scope.

(** * What an amendment puts in *)

Definition starts_at (p : rpart) (i : pystr) : Prop := p = RId i \/ exists j, p = RRange i j.
(* the type of the lowest part of the reference, the first number that a list of this type has, and its number *)
Inductive place_of : reference -> sae_kind -> pystr -> pystr -> Prop :=
| at_paragraph act a p i : starts_at p i -> item_id KParagraph (u8 "1") i -> place_of (mk_ref act a p RNone RNone) KParagraph (u8 "1") i
| at_point act a b p i : starts_at p i -> item_id KAlphabeticPoint (u8 "a") i -> place_of (mk_ref act a b p RNone) KAlphabeticPoint (u8 "a") i
| at_numbered_point act a b p i : starts_at p i -> item_id KNumericPoint (u8 "1") i -> place_of (mk_ref act a b p RNone) KNumericPoint (u8 "1") i
| at_subpoint act a b c p prefix x : starts_at p (prefix ++ [x]) -> Forall small_letter prefix -> small_letter x ->
    place_of (mk_ref act a b c p) KAlphabeticSubpoint (prefix ++ u8 "a") (prefix ++ [x])
| at_numbered_subpoint act a b c p i : starts_at p i -> item_id KNumericSubpoint (u8 "1") i -> place_of (mk_ref act a b c p) KNumericSubpoint (u8 "1") i.

(* the line does not start with the number after [i] *)
Definition same_item (k : sae_kind) (first i : pystr) (l : line) : Prop :=
  forall j, item_id k first j -> begins_with (header k j) l ->
    ~ follows k i j /\ (k = KAlphabeticSubpoint -> List.length i = 1%nat \/ (List.length i = 2 /\ List.length j = 2)%nat).
(* layouts of elements one after the other, the first with the number [i] *)
Inductive items_layout (k : sae_kind) (first : pystr) : pystr -> list line -> list sae -> Prop :=
| items_last i l ls e : item_id k first i -> layout false k first (l :: ls) e -> s_identifier e = Some i ->
    outside (same_item k first i) (open_after [l]) ls -> items_layout k first i (l :: ls) [e]
| items_more i j l ls rest e es : item_id k first i -> layout false k first (l :: ls) e -> s_identifier e = Some i ->
    outside (same_item k first i) (open_after [l]) ls -> next_item k i j -> items_layout k first j rest es ->
    items_layout k first i ((l :: ls) ++ rest) (e :: es).

Definition article_after (i j : pystr) : Prop :=
  exists b n l c m k, article_letter l /\ article_letter k /\ i = article_id b n l /\ j = article_id c m k /\ article_successor b n l c m k.
Definition article_elsewhere (i j : pystr) : Prop :=
  exists b n l c m k, article_letter l /\ article_letter k /\ i = article_id b n l /\ j = article_id c m k /\ ~ article_successor b n l c m k.
Definition same_article (i : pystr) (l : line) : Prop := forall j, article_heading (l_content l) j -> article_elsewhere i j.
Inductive articles_layout : pystr -> list line -> list article -> Prop :=
| articles_last l ls a : article_layout false (l :: ls) a -> balanced 0 (l :: ls) -> Forall one_line (l :: ls) ->
    outside (same_article (a_identifier a)) (open_after [l]) ls -> articles_layout (a_identifier a) (l :: ls) [a]
| articles_more l ls rest a j l2 : article_layout false (l :: ls) a -> balanced 0 (l :: ls) -> Forall one_line (l :: ls) ->
    outside (same_article (a_identifier a)) (open_after [l]) ls -> article_after (a_identifier a) j -> articles_layout j rest l2 ->
    articles_layout (a_identifier a) ((l :: ls) ++ rest) (a :: l2).

(* [put_in r ls cs]: the lines are a layout of what comes to the place [r] *)
Inductive put_in : any_reference -> list line -> list child -> Prop :=
| puts_articles act p i ls l : starts_at p i -> articles_layout i ls l -> put_in (ARef (mk_ref act p RNone RNone RNone)) ls (map ChArticle l)
| puts_items r k first i ls es : place_of r k first i -> items_layout k first i ls es -> put_in (ARef r) ls (map ChSae es)
| puts_structure r lead previous body cs : calm_lines false no_numbers None EMPTY_LINE 0 lead previous -> balanced 0 lead -> Forall one_line lead ->
    body_layout false false no_numbers None previous body cs -> cs <> [] -> put_in (ASRef r) (lead ++ body) (map act_child_child cs).

(* The introduction ends with the colon, or the beginning of the amended sentence follows it in brackets; then its end follows
   the block, in brackets as well. *)
Inductive introduced (actual : pystr) : pystr -> option pystr -> option pystr -> option pystr -> Prop :=
| intro_alone : (forall a c, ~ with_context actual a c) -> introduced actual actual None None None
| intro_context intro context : splits_into intro actual context -> introduced actual intro None (Some context) None
| intro_contexts intro context o w c : splits_into intro actual context -> introduced actual intro (Some (o :: w ++ [c])) (Some context) (Some w).
(* [amending p q]: a paragraph before and after its quoted block is read *)
Inductive amending : sae -> sae -> Prop :=
| amends_nothing p : (forall cs, s_children p = Some cs -> forall ls, ~ In (ChQuoted ls) cs) -> amending p p
| amends_unread i intro bs w : 10000 < Z.of_nat (length intro) -> bs <> [] ->
    amending (mk_sae KParagraph i None (Some intro) (Some (map ChQuoted bs)) w NO_META)
             (mk_sae KParagraph i None (Some intro) (Some (map ChQuoted bs)) w NO_META)
| amends_told i intro actual bs w refs semantics abbrs :
    (actual = intro /\ forall a c, ~ with_context intro a c) \/ (exists c, splits_into intro actual c) ->
    Z.of_nat (length intro) <= 10000 -> bs <> [] ->
    sentence_written actual refs semantics abbrs -> (forall r new, ~ In (BlockAmendment r new) semantics) ->
    amending (mk_sae KParagraph i None (Some intro) (Some (map ChQuoted bs)) w NO_META)
             (mk_sae KParagraph i None (Some intro) (Some (map ChQuoted bs)) w NO_META)
| amends_block i intro actual lines w ctx ctx' refs r new abbrs cs : introduced actual intro w ctx ctx' -> Z.of_nat (length intro) <= 10000 ->
    block_written actual refs (BlockAmendment r new) abbrs -> put_in r lines cs ->
    amending (mk_sae KParagraph i None (Some intro) (Some [ChQuoted lines]) w NO_META)
             (mk_sae KParagraph i None (Some actual) (Some [ChSae (mk_sae KBlockAmendmentContainer None None ctx (Some cs) ctx' NO_META)]) (Some []) NO_META).
Definition amending_child (x y : act_child) : Prop :=
  match x, y with
  | AArticle a, AArticle b => a_identifier a = a_identifier b /\ a_title a = a_title b /\ Forall2 amending (a_paragraphs a) (a_paragraphs b)
  | AStruct e, AStruct e' => e = e'
  | _, _ => False
  end.
Definition amending_act (a b : act) : Prop :=
  act_identifier b = act_identifier a /\ act_publication_date b = act_publication_date a /\ act_subject b = act_subject a /\ act_preamble b = act_preamble a /\
  Forall2 amending_child (act_children a) (act_children b).

(** * What the sentences say *)

(* [says known rd m]: what is to be stored about a sentence, if [known] was introduced before *)
Inductive says (known : list act_id_abbreviation) : reading -> sae_meta -> Prop :=
| says_no_text p q : says known (mk_reading None p q) (mk_meta (Some []) (Some []) (Some []))
| says_unread s p q t : item_text s q t -> ~ worth_reading (p ++ t ++ q) -> says known (mk_reading (Some s) p q) (mk_meta (Some []) (Some []) (Some []))
| says_sentence s p q t refs semantics abbrs f found sorted : item_text s q t -> worth_reading (p ++ t ++ q) -> sentence_written (p ++ t ++ q) refs semantics abbrs ->
    meaning (known ++ abbrs) f -> kept_references f (length p) (length t) refs found -> Permutation found sorted -> StronglySorted position_le sorted ->
    says known (mk_reading (Some s) p q) (mk_meta (Some abbrs) (Some sorted) (Some (map (fun s => sem_resolve s f) semantics))).
Inductive says_all : list act_id_abbreviation -> list reading -> list sae_meta -> Prop :=
| says_end known : says_all known [] []
| says_next known rd m abbrs rds ms : says known rd m -> m_abbreviations m = Some abbrs -> says_all (known ++ abbrs) rds ms ->
    says_all known (rd :: rds) (m :: ms).

(** * Laws *)

(* [law_written c lines]: the lines are a layout of an act that quotes its amendments; with these in their place it is [c],
   except that [c] has what the sentences say. *)
Definition law_written (c : act) (lines : list line) : Prop :=
  exists a b, act_layout a lines /\ amending_act a b /\ bare_act c = b /\ says_all [] (readings_of b) (map s_meta (carriers_of c)).
