(* Independent specification of articles that are inserted at a named place. *)
From Verif Require Import PyBase NumModel NumSpec IdModel RefModel RefSpec TreeModel SemModel GramModel GramSpec PegSpec PegSpec2 PegSpec3 DivSpec SubSpec CiteSpec.
Local Open Scope Z_scope.

(* XX. Fejezete, a 92. §-t követően, „A vételi jog” alcíme; all with a space before it *)
Inductive named_place : pystr -> Prop :=
| np_position a w r : position_written a w r -> named_place w
| np_titled q t : plain_quote q -> titled_word t -> named_place (u8 " " ++ quoted q ++ t).
Definition calm (w : pystr) : Prop := ~ has w (u8 "követő") /\ ~ has w (u8 "megelőző").
(* and if s comes after it *)
Inductive plain_place (s : pystr) : pystr -> Prop :=
| pp_place a w r : place_written a w r -> plain_place s (u8 " " ++ w)
| pp_titled q t : plain_quote q -> titled_word t -> plain_place s (u8 " " ++ quoted q ++ t)
| pp_division a w r : division_written a w r -> (sr_subtitle r = None -> untitled (w ++ s)) -> calm (w ++ s) -> plain_place s (u8 " " ++ w).
(* the place w is not stored *)
Inductive placed : pystr -> list outgoing_reference -> semantic_data -> list act_id_abbreviation -> Prop :=
| pc_inserted z u a x y m w i o f k : article_word z -> title_words u -> act_written a x y m -> k = size z + size u -> named_place w ->
    insertion_written (Some a) (k + size x + size y + size w) (u8 " a következő " ++ i) [o] -> untitled i -> insertion_ending f ->
    placed (z ++ u ++ x ++ y ++ w ++ u8 " a következő " ++ i ++ f ++ u8 ":") [mk_outgoing k (k + size x) (act_only a); o] (BlockAmendment (ARef (or_reference o)) true) m
(* the same, without a following word, and for what is replaced *)
| pc_at_inserted z u a x y m w i o f k : article_word z -> title_words u -> act_written a x y m -> k = size z + size u -> plain_place (u8 " " ++ i ++ f ++ u8 ":") w ->
    insertion_written (Some a) (k + size x + size y + size w) (u8 " " ++ i) [o] -> insertion_ending f ->
    placed (z ++ u ++ x ++ y ++ w ++ u8 " " ++ i ++ f ++ u8 ":") [mk_outgoing k (k + size x) (act_only a); o] (BlockAmendment (ARef (or_reference o)) true) m
| pc_at_replaced z u a x y m w i o f k : article_word z -> title_words u -> act_written a x y m -> k = size z + size u -> plain_place (u8 " " ++ i ++ f ++ u8 ":") w ->
    reference_listed (Some a) (k + size x + size y + size w + 1) i [o] -> amendment_ending f ->
    placed (z ++ u ++ x ++ y ++ w ++ u8 " " ++ i ++ f ++ u8 ":") [mk_outgoing k (k + size x) (act_only a); o] (BlockAmendment (ARef (or_reference o)) false) m
| pc_at_both z u a x y m w v s e r f c i s' e' r' f' g q k k' : article_word z -> title_words u -> act_written a x y m -> k = size z + size u -> plain_place (u8 " " ++ v ++ f ++ c ++ i ++ f' ++ u8 ":") w -> k' = k + size x + size y + size w + 1 ->
    reference_listed (Some a) k' v [mk_outgoing s e r] -> amendment_ending f -> conjunction c -> joint_insertion (Some a) (k' + size v + size f + size c) i [mk_outgoing s' e' r'] -> insertion_ending f' ->
    filled r (with_act None r') g -> united r g q ->
    placed (z ++ u ++ x ++ y ++ w ++ u8 " " ++ v ++ f ++ c ++ i ++ f' ++ u8 ":") [mk_outgoing k (k + size x) (act_only a); mk_outgoing s e r; mk_outgoing s' e' g] (BlockAmendment (ARef q) false) m.
