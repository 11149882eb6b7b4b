(* Independent specification of how amendments are written. *)
From Verif Require Import PyBase NumModel IdModel RefModel RefSpec TreeModel SemModel GramModel GramSpec PegSpec PegSpec2 CiteSpec.
Local Open Scope Z_scope.

(** * Block amendments *)

(* where something is inserted, and what; all with a space before it: " 5. §-a a következő (3) bekezdéssel"; the first character is the k-th *)
Inductive insertion_written (act : option pystr) (k : Z) : pystr -> list outgoing_reference -> Prop :=
| ins_article w v a p out i : i = u8 " a következő" ++ w ++ v -> level_listed 1 (k + size (u8 " a következő")) w a -> w <> [] -> level_listed 2 (k + size (u8 " a következő" ++ w)) v p ->
    cites 1 [a; p; []; []] (no_parts act) (k + 1) (k + size i) out -> insertion_written act k i out
| ins_paragraph w v a p out i : i = w ++ u8 " a következő" ++ v -> level_listed 1 k w a -> level_listed 2 (k + size (w ++ u8 " a következő")) v p -> v <> [] ->
    cites 1 [a; p; []; []] (no_parts act) (k + 1) (k + size i) out -> insertion_written act k i out
| ins_point w v z a p q out i : i = w ++ v ++ u8 " a következő" ++ z -> level_listed 1 k w a -> level_listed 2 (k + size w) v p -> (w = [] -> v = []) ->
    level_listed 3 (k + size (w ++ v ++ u8 " a következő")) z q -> z <> [] ->
    cites 1 [a; p; q; []] (no_parts act) (k + 1) (k + size i) out -> insertion_written act k i out
| ins_subpoint w v z x a p q r out i : i = w ++ v ++ z ++ u8 " a következő" ++ x -> level_listed 1 k w a -> w <> [] -> level_listed 2 (k + size w) v p ->
    level_listed 3 (k + size (w ++ v)) z q -> z <> [] -> level_listed 4 (k + size (w ++ v ++ z ++ u8 " a következő")) x r -> x <> [] ->
    cites 1 [a; p; q; r] (no_parts act) (k + 1) (k + size i) out -> insertion_written act k i out.
(* the act is named after an article and perhaps words *)
Definition article_word (z : pystr) : Prop := In z [u8 "A"; u8 "Az"; u8 "a"; u8 "az"].
Definition title_words (u : pystr) : Prop := words u /\ exists v c, u = v ++ [c] /\ isspace_chr c = true /\ isspace_chr (hd c v) = true.
Definition amendment_ending (f : pystr) : Prop :=
  In f [u8 " helyébe a következő rendelkezés lép"; u8 " helyébe a következő rendelkezések lépnek"; u8 " a következő szöveggel lép hatályba"].
Definition insertion_ending (f : pystr) : Prop := In f [u8 " egészül ki"; u8 " kiegészülve lép hatályba"].
(* nothing is said of chapters and subtitles, or of what is before or after an article *)
Definition unplaced (w : pystr) : Prop :=
  Forall (fun x => ~ has w x) [u8 "követő"; u8 "megelőző"; u8 "alcím"; u8 "Fejezet"; u8 "Rész"; u8 "Cím"].
Definition act_only (a : pystr) : reference := mk_ref (Some a) RNone RNone RNone RNone.
(* the act, what is amended or inserted in it, and whether it is inserted *)
Inductive amendment_written : pystr -> outgoing_reference -> list outgoing_reference -> bool -> list act_id_abbreviation -> Prop :=
| bw_amended z u a x y m w out f k : article_word z -> title_words u -> act_written a x y m -> k = size z + size u ->
    reference_listed (Some a) (k + size x + size y + 1) w out -> unplaced w -> amendment_ending f ->
    amendment_written (z ++ u ++ x ++ y ++ u8 " " ++ w ++ f ++ u8 ":") (mk_outgoing k (k + size x) (act_only a)) out false m
| bw_inserted z u a x y m i out f k : article_word z -> title_words u -> act_written a x y m -> k = size z + size u ->
    insertion_written (Some a) (k + size x + size y) i out -> unplaced i -> insertion_ending f ->
    amendment_written (z ++ u ++ x ++ y ++ i ++ f ++ u8 ":") (mk_outgoing k (k + size x) (act_only a)) out true m.
(* what is inserted in a sentence that also replaces something: the article or the paragraph may not be repeated,
   " a § a következő (1a) bekezdéssel" *)
Inductive joint_insertion (act : option pystr) (k : Z) : pystr -> list outgoing_reference -> Prop :=
| ji_plain i out : insertion_written act k i out -> joint_insertion act k i out
| ji_paragraph v p out i : i = u8 " a §" ++ u8 " a következő" ++ v -> level_listed 2 (k + size (u8 " a §" ++ u8 " a következő")) v p -> v <> [] ->
    cites 1 [[]; p; []; []] (no_parts act) (k + 1) (k + size i) out -> joint_insertion act k i out
| ji_point j v p out i : In j [u8 " a §"; u8 " a bekezdés"] -> i = j ++ u8 " a következő" ++ v -> level_listed 3 (k + size (j ++ u8 " a következő")) v p -> v <> [] ->
    cites 1 [[]; []; p; []] (no_parts act) (k + 1) (k + size i) out -> joint_insertion act k i out.
Definition conjunction (c : pystr) : Prop := In c [u8 " és"; u8 " valamint"; u8 " egyidejűleg"; u8 ", és"; u8 ", valamint"; u8 ", egyidejűleg"].
(* the act, what is amended and what is inserted *)
Inductive both_written : pystr -> outgoing_reference -> list outgoing_reference -> list outgoing_reference -> list act_id_abbreviation -> Prop :=
| bb_both z u a x y m w am f c i ins f' k k' : article_word z -> title_words u -> act_written a x y m -> k = size z + size u -> k' = k + size x + size y + 1 ->
    reference_listed (Some a) k' w am -> unplaced w -> amendment_ending f -> conjunction c ->
    joint_insertion (Some a) (k' + size w + size f + size c) i ins -> unplaced i -> insertion_ending f' ->
    both_written (z ++ u ++ x ++ y ++ u8 " " ++ w ++ f ++ c ++ i ++ f' ++ u8 ":") (mk_outgoing k (k + size x) (act_only a)) am ins m.
(* what is before the first part of the reference is as in the last one *)
Definition filled (last r f : reference) : Prop :=
  exists i, first_level r i /\ forall j, (j < 5)%nat -> nth_part f j = nth_part (if (j <? i)%nat then last else r) j.
(* the first and the last element of a reference *)
Definition ends_of (r first last : reference) : Prop :=
  forall i, (i < 5)%nat -> match nth_part r i with RRange x y => nth_part first i = RId x /\ nth_part last i = RId y | p => nth_part first i = p /\ nth_part last i = p end.
Definition above (a b : reference) : Prop :=
  exists i, (i < 5)%nat /\ nth_part a i = RNone /\ nth_part b i <> RNone /\ forall j, (j < i)%nat -> nth_part a j = nth_part b j.
(* x is between the first and the last, or under the last *)
Definition lies_in (first last x : reference) : Prop := (first = x \/ ref_before first x) /\ (last = x \/ ref_before x last \/ above last x).
Inductive spans : rpart -> rpart -> rpart -> Prop :=
| sp_same p : spans p p p
| sp_range a b : part_before (RId a) (RId b) -> spans (RId a) (RId b) (RRange a b).
(* one reference for what is amended and for what is inserted: what is amended if the other begins inside it,
   or all from the first to the last element *)
Inductive united (r f : reference) : reference -> Prop :=
| un_within a z x y : ends_of r a z -> ends_of f x y -> lies_in a z x -> united r f r
| un_over a z x y u : ends_of r a z -> ends_of f x y -> ~ lies_in a z x -> (forall i, (i < 5)%nat -> spans (nth_part a i) (nth_part y i) (nth_part u i)) -> united r f u.
Inductive block_written (text : pystr) : list outgoing_reference -> semantic_data -> list act_id_abbreviation -> Prop :=
| bw_one act o new m : amendment_written text act [o] new m -> block_written text [act; o] (BlockAmendment (ARef (or_reference o)) new) m
| bw_both act s e r s' e' r' f u m : both_written text act [mk_outgoing s e r] [mk_outgoing s' e' r'] m -> filled r (with_act None r') f -> united r f u ->
    block_written text [act; mk_outgoing s e r; mk_outgoing s' e' f] (BlockAmendment (ARef u) false) m
(* a list that is not one range is amended or inserted: this is given up, and the rest is taken alone *)
| bw_first act o ins m : both_written text act [o] ins m -> length ins <> 1%nat -> block_written text [act; o] (BlockAmendment (ARef (or_reference o)) false) m
| bw_second act am o m : both_written text act am [o] m -> length am <> 1%nat -> block_written text [act; o] (BlockAmendment (ARef (or_reference o)) true) m.
Inductive lost_written (text : pystr) : list outgoing_reference -> list act_id_abbreviation -> Prop :=
| lo_many act out new m : amendment_written text act out new m -> length out <> 1%nat -> lost_written text [act] m
| lo_both act am ins m : both_written text act am ins m -> length am <> 1%nat -> length ins <> 1%nat -> lost_written text [act] m.
(* no reference is for both *)
Inductive clash_written (text : pystr) : Prop :=
| cl_both act s e r s' e' r' f m : both_written text act [mk_outgoing s e r] [mk_outgoing s' e' r'] m -> filled r (with_act None r') f -> (forall u, ~ united r f u) -> clash_written text.

(** * References in a list, each relative to the one before it *)

Inductive all_filled : reference -> list outgoing_reference -> list outgoing_reference -> reference -> Prop :=
| af_end last : all_filled last [] [] last
| af_next last s e r f l out final : filled last r f -> all_filled f l out final -> all_filled last (mk_outgoing s e r :: l) (mk_outgoing s e f :: out) final.
Inductive chain_written : reference -> Z -> pystr -> list outgoing_reference -> Prop :=
| cw_last last k w raw out final : reference_listed None k w raw -> all_filled last raw out final -> chain_written last k w out
| cw_more last k w raw out final p s l : reference_listed None k w raw -> all_filled last raw out final -> separator p -> chain_written final (k + size w + size p) s l ->
    chain_written last k (w ++ p ++ s) (out ++ l).

(** * Quotes *)

Definition plain_quote (q : pystr) : Prop := ~ In 8222%N q /\ ~ In 8221%N q.
Definition quoted (q : pystr) : pystr := u8 "„" ++ q ++ u8 "”".
Definition quote_article (z : pystr) : Prop := In z [u8 " a "; u8 " az "].
(* „x” szövegrész helyébe a „y” *)
Definition replacement_written (x y w : pystr) : Prop :=
  exists a b z, plain_quote x /\ plain_quote y /\ In a [u8 " szövegrész"; u8 " szövegrészek"] /\ In b [u8 " helyébe"; u8 " helyett"] /\ quote_article z /\
    w = quoted x ++ a ++ b ++ z ++ quoted y.
Definition text_word (e : pystr) : Prop := In e [u8 " szöveggel"; u8 " szöveg"; u8 " szövegrész"].
Inductive replacements_written : list (pystr * pystr) -> pystr -> Prop :=
| rw_last x y w e : replacement_written x y w -> text_word e -> replacements_written [(x, y)] (w ++ e)
| rw_more x y w e p l s : replacement_written x y w -> e = [] \/ text_word e -> separator p -> replacements_written l s ->
    replacements_written ((x, y) :: l) (w ++ e ++ p ++ s).
Inductive texts_written : list pystr -> pystr -> Prop :=
| tw_last x e : plain_quote x -> In e [u8 ""; u8 " szövegrész"] -> texts_written [x] (quoted x ++ e)
| tw_more x e p l s : plain_quote x -> In e [u8 ""; u8 " szövegrész"] -> separator p -> texts_written l s -> texts_written (x :: l) (quoted x ++ e ++ p ++ s).

(** * Amendments of texts, repeals *)

Definition enters (e : pystr) : Prop := In e [u8 " lép."; u8 " lép hatályba."].
Inductive change_written : pystr -> list outgoing_reference -> list semantic_data -> list act_id_abbreviation -> Prop :=
| cw_text z u a x y m w refs q parts v e k : article_word z -> title_words u -> act_written a x y m -> k = size z + size u ->
    chain_written (act_only a) (k + size x + size y + 1) w refs -> quote_article q -> replacements_written parts v -> enters e ->
    change_written (z ++ u ++ x ++ y ++ u8 " " ++ w ++ q ++ v ++ e) (mk_outgoing k (k + size x) (act_only a) :: refs)
      (flat_map (fun o => map (fun t => TextAmendment (or_reference o) (str_strip (fst t)) (str_strip (snd t))) parts) refs) m
| cw_title z u a x y m i c d q b b' v t e k k' : article_word z -> title_words u -> act_written a x y m -> k = size z + size u -> k' = k + size x + size y + 1 ->
    article_shape i -> sign_ending c -> ending d -> d <> [] -> quote_article q -> replacement_written b b' v -> text_word t -> enters e ->
    change_written (z ++ u ++ x ++ y ++ u8 " " ++ (i ++ u8 ". §" ++ c) ++ u8 " cím" ++ d ++ q ++ v ++ t ++ e)
      [mk_outgoing k (k + size x) (act_only a); mk_outgoing k' (k' + size (i ++ u8 ". §" ++ c)) (mk_ref (Some a) (RId i) RNone RNone RNone)]
      [ArticleTitleAmendment (mk_ref (Some a) (RId i) RNone RNone RNone) (str_strip b) (str_strip b')] m
| cw_repeal h z u a x y m w refs k : In h [u8 "Nem lép hatályba"; u8 "Hatályát veszti"] -> quote_article z -> words u -> spaced u -> act_written a x y m -> k = size h + size z + size u ->
    chain_written (act_only a) (k + size x + size y + 1) w refs ->
    change_written (h ++ z ++ u ++ x ++ y ++ u8 " " ++ w ++ u8 ".") (mk_outgoing k (k + size x) (act_only a) :: refs)
      (map (fun o => Repeal (ARef (or_reference o)) None) refs) m
| cw_texts h z u a x y m w refs q texts v k : In h [u8 "Nem lép hatályba"; u8 "Hatályát veszti"] -> quote_article z -> words u -> spaced u -> act_written a x y m -> k = size h + size z + size u ->
    chain_written (act_only a) (k + size x + size y + 1) w refs -> quote_article q -> texts_written texts v ->
    change_written (h ++ z ++ u ++ x ++ y ++ u8 " " ++ w ++ q ++ v ++ u8 ".") (mk_outgoing k (k + size x) (act_only a) :: refs)
      (flat_map (fun o => map (fun t => Repeal (ARef (or_reference o)) (Some (str_strip t))) texts) refs) m.
