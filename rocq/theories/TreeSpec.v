(* Independent specification of act trees: well-formedness, places of elements, walks. *)
From Verif Require Import PyBase IdModel IdSpec LineModel DateModel RefModel RefSpec TreeModel.

(** * Well-formed elements *)

(* which classes of children a class of element may have *)
Inductive may_contain : sae_kind -> child_class -> Prop :=
| mc_numeric_point : may_contain KNumericPoint (TSae KAlphabeticSubpoint)
| mc_alphabetic_point_a : may_contain KAlphabeticPoint (TSae KAlphabeticSubpoint)
| mc_alphabetic_point_n : may_contain KAlphabeticPoint (TSae KNumericSubpoint)
| mc_paragraph_a : may_contain KParagraph (TSae KAlphabeticPoint)
| mc_paragraph_n : may_contain KParagraph (TSae KNumericPoint)
| mc_paragraph_quote : may_contain KParagraph TQuoted
| mc_paragraph_amendment : may_contain KParagraph (TSae KBlockAmendmentContainer)
| mc_container_sae k : k <> KBlockAmendmentContainer -> may_contain KBlockAmendmentContainer (TSae k)
| mc_container_article : may_contain KBlockAmendmentContainer TArticle
| mc_container_struct k : may_contain KBlockAmendmentContainer (TStruct k).

Record well_formed (s : sae) : Prop := mk_wf {
  wf_text : s_text s <> None -> s_intro s = None /\ s_children s = None /\ s_wrap_up s = None;
  wf_nonempty : s_children s <> Some [];
  wf_one_kind : s_kind s <> KBlockAmendmentContainer ->
    forall cs c d, s_children s = Some cs -> In c cs -> In d cs -> class_of c = class_of d;
  wf_allowed : forall cs c, s_children s = Some cs -> In c cs -> may_contain (s_kind s) (class_of c)
}.

(* one unnamed paragraph, or numbered ones only *)
Definition article_well_formed (a : article) : Prop :=
  (exists p, a_paragraphs a = [p] /\ s_identifier p = None) \/
  Forall (fun p => s_identifier p <> None) (a_paragraphs a).

(* the objects that can exist: those the constructors built from objects that exist *)
Inductive built_sae : sae -> Prop :=
| built_sae_intro kind identifier text intro children wrap_up meta s :
    (forall cs c, children = Some cs -> In c cs -> built_child c) ->
    new_sae kind identifier text intro children wrap_up meta = Ok s -> built_sae s
with built_child : child -> Prop :=
| built_child_sae s : built_sae s -> built_child (ChSae s)
| built_child_article a : built_article a -> built_child (ChArticle a)
| built_child_quoted ls : built_child (ChQuoted ls)
| built_child_struct e : built_child (ChStruct e)
with built_article : article -> Prop :=
| built_article_intro identifier title paragraphs a :
    (forall p, In p paragraphs -> built_sae p) ->
    new_article identifier title paragraphs = Ok a -> built_article a.

(* The types of the children of an article are not checked by its constructor, only declared
   (structure.py:558, 565-572). *)
Definition paragraphs_only (a : article) : Prop := Forall (fun p => s_kind p = KParagraph) (a_paragraphs a).
Definition built_act (a : act) : Prop :=
  forall x, In (AArticle x) (act_children a) -> built_article x /\ paragraphs_only x.

(* everything inside an element *)
Inductive inside_sae : child -> sae -> Prop :=
| inside_child s cs c : s_children s = Some cs -> In c cs -> inside_sae c s
| inside_deeper s cs d c : s_children s = Some cs -> In d cs -> inside_child_of c d -> inside_sae c s
with inside_child_of : child -> child -> Prop :=
| inside_of_sae c s : inside_sae c s -> inside_child_of c (ChSae s)
| inside_of_article c a : inside_article c a -> inside_child_of c (ChArticle a)
with inside_article : child -> article -> Prop :=
| inside_paragraph a p : In p (a_paragraphs a) -> inside_article (ChSae p) a
| inside_paragraph_deeper a p c : In p (a_paragraphs a) -> inside_sae c p -> inside_article c a.

(** * Places *)

(* the elements of an act that have a reference of their own *)
Inductive located (a : act) : reference -> child -> Prop :=
| loc_article art : In (AArticle art) (act_children a) ->
    located a (mk_ref (Some (act_identifier a)) (RId (a_identifier art)) RNone RNone RNone) (ChArticle art)
| loc_paragraph art par i : In (AArticle art) (act_children a) -> In par (a_paragraphs art) ->
    s_identifier par = Some i ->
    located a (mk_ref (Some (act_identifier a)) (RId (a_identifier art)) (RId i) RNone RNone) (ChSae par)
| loc_point art par pt cs i : In (AArticle art) (act_children a) -> In par (a_paragraphs art) ->
    s_children par = Some cs -> In (ChSae pt) cs ->
    s_kind pt = KNumericPoint \/ s_kind pt = KAlphabeticPoint -> s_identifier pt = Some i ->
    located a (mk_ref (Some (act_identifier a)) (RId (a_identifier art)) (opt_part (s_identifier par)) (RId i) RNone)
              (ChSae pt)
| loc_subpoint art par pt sp cs ds i j : In (AArticle art) (act_children a) -> In par (a_paragraphs art) ->
    s_children par = Some cs -> In (ChSae pt) cs ->
    s_kind pt = KNumericPoint \/ s_kind pt = KAlphabeticPoint -> s_identifier pt = Some i ->
    s_children pt = Some ds -> In (ChSae sp) ds -> s_identifier sp = Some j ->
    located a (mk_ref (Some (act_identifier a)) (RId (a_identifier art)) (opt_part (s_identifier par)) (RId i) (RId j))
              (ChSae sp).

(* no two siblings with the same identifier *)
Definition unique_children (s : sae) : Prop :=
  forall cs, s_children s = Some cs -> forall c d, In c cs -> In d cs ->
    child_identifier c = child_identifier d -> child_identifier c <> None -> c = d.
Record unique_identifiers (a : act) : Prop := mk_unique {
  un_articles : forall x y, In (AArticle x) (act_children a) -> In (AArticle y) (act_children a) ->
    a_identifier x = a_identifier y -> x = y;
  un_paragraphs : forall x p q, In (AArticle x) (act_children a) -> In p (a_paragraphs x) -> In q (a_paragraphs x) ->
    s_identifier p = s_identifier q -> p = q;
  un_points : forall x p, In (AArticle x) (act_children a) -> In p (a_paragraphs x) -> unique_children p;
  un_subpoints : forall x p cs c, In (AArticle x) (act_children a) -> In p (a_paragraphs x) ->
    s_children p = Some cs -> In (ChSae c) cs -> s_kind c = KNumericPoint \/ s_kind c = KAlphabeticPoint -> unique_children c
}.

(* references to one place of the act: not of another act, no ranges, an article, no subpoint
   without a point *)
Definition single_reference (a : act) (r : reference) : Prop :=
  (r_act r = None \/ r_act r = Some (act_identifier a)) /\ no_ranges r /\ r_article r <> RNone /\
  (r_point r = RNone -> r_subpoint r = RNone).
Definition absolute (a : act) (r : reference) : reference := with_act (Some (act_identifier a)) r.

(* the identifier is between the ends, in identifier order *)
Definition id_between (lo hi : pystr) (i : option pystr) : Prop :=
  match i with None => False | Some x => between lo x hi end.

(** * Walks *)

(* where an element is, given where its parent is: its own identifier at its own level, or its
   parent's place if it has none *)
Definition place (p : reference) (s : sae) : reference :=
  match s_identifier s with
  | None => p
  | Some i =>
      match s_kind s with
      | KParagraph => mk_ref (r_act p) (r_article p) (RId i) RNone RNone
      | KNumericPoint | KAlphabeticPoint => mk_ref (r_act p) (r_article p) (r_paragraph p) (RId i) RNone
      | KAlphabeticSubpoint | KNumericSubpoint =>
          mk_ref (r_act p) (r_article p) (r_paragraph p) (r_point p) (RId i)
      | KBlockAmendmentContainer => p
      end
  end.

(* the elements to visit with their places; quoted amendments are not entered *)
Fixpoint nodes (parents_first : bool) (p : reference) (s : sae) : list (reference * sae) :=
  match s with
  | mk_sae KBlockAmendmentContainer _ _ _ _ _ _ => []
  | mk_sae _ _ _ _ cs _ _ =>
      let r := place p s in
      let below :=
        match cs with
        | None => []
        | Some l =>
            (fix go (l : list child) : list (reference * sae) :=
               match l with
               | [] => []
               | ChSae c :: t => nodes parents_first r c ++ go t
               | _ :: t => go t
               end) l
        end in
      if parents_first then (r, s) :: below else below ++ [(r, s)]
  end.
Definition article_place (a : act) (x : article) : reference :=
  mk_ref (Some (act_identifier a)) (RId (a_identifier x)) RNone RNone RNone.
Definition act_nodes (parents_first : bool) (a : act) : list (reference * sae) :=
  flat_map (fun c => match c with
                     | AStruct _ => []
                     | AArticle x => flat_map (nodes parents_first (article_place a x)) (a_paragraphs x)
                     end) (act_children a).

(* what an absolute reference without gaps selects: the places that agree with it above its last
   level and are inside its range at that level *)
Definition selects (f r : reference) : Prop :=
  exists ids lo hi x rest, denotes_interval (levels f) ids lo hi /\
    components r = map RId ids ++ RId x :: rest /\ between lo x hi.
Definition chosen_by (f : option reference) (r : reference) : Prop :=
  match f with None => True | Some f => selects f r end.
(* every place in the act is given by canonical identifiers *)
Definition canonical_places (a : act) : Prop :=
  (forall x, In (AArticle x) (act_children a) -> canonical (article_place a x)) /\
  (forall b r s, In (r, s) (act_nodes b a) -> canonical r).
(* the filters and acts for which this is claimed *)
Definition good_filter (a : act) (f : option reference) : Prop :=
  match f with None => True | Some f => simple_reference f /\ r_act f <> None /\ canonical_places a end.

(* an element with its children replaced *)
Definition with_children (s : sae) (cs : option (list child)) : sae :=
  mk_sae (s_kind s) (s_identifier s) (s_text s) (s_intro s) cs (s_wrap_up s) (s_meta s).

(* How the result of a walk with the function [f] is related to what was walked: [f] applied at
   every chosen place, parents first or children first, everything else as before. *)
Inductive applied (f : reference -> sae -> sae) (sel : reference -> Prop) : reference -> sae -> sae -> Prop :=
| applied_yes r s : sel r -> applied f sel r s (f r s)
| applied_no r s : ~ sel r -> applied f sel r s s.
Inductive mapped (f : reference -> sae -> sae) (sel : reference -> Prop) (parents_first : bool)
  : reference -> sae -> sae -> Prop :=
| mapped_container p s : s_kind s = KBlockAmendmentContainer -> mapped f sel parents_first p s s
| mapped_sae p s s1 cs s2 s3 : s_kind s <> KBlockAmendmentContainer ->
    (if parents_first then applied f sel (place p s) s s1 else s1 = s) ->
    mapped_children f sel parents_first (place p s) (s_children s1) cs ->
    s2 = with_children s1 cs ->
    (if parents_first then s3 = s2 else applied f sel (place p s) s2 s3) ->
    mapped f sel parents_first p s s3
with mapped_children (f : reference -> sae -> sae) (sel : reference -> Prop) (parents_first : bool)
  : reference -> option (list child) -> option (list child) -> Prop :=
| mapped_none r : mapped_children f sel parents_first r None None
| mapped_some r l k : mapped_list f sel parents_first r l k -> mapped_children f sel parents_first r (Some l) (Some k)
with mapped_list (f : reference -> sae -> sae) (sel : reference -> Prop) (parents_first : bool)
  : reference -> list child -> list child -> Prop :=
| mapped_nil r : mapped_list f sel parents_first r [] []
| mapped_child r s s' l k : mapped f sel parents_first r s s' -> mapped_list f sel parents_first r l k ->
    mapped_list f sel parents_first r (ChSae s :: l) (ChSae s' :: k)
| mapped_other r c l k : (forall s, c <> ChSae s) -> mapped_list f sel parents_first r l k ->
    mapped_list f sel parents_first r (c :: l) (c :: k).

Inductive mapped_act_child (f : reference -> sae -> sae) (sel : reference -> Prop) (parents_first : bool) (a : act)
  : act_child -> act_child -> Prop :=
| mapped_struct e : mapped_act_child f sel parents_first a (AStruct e) (AStruct e)
| mapped_article i t ps qs : Forall2 (mapped f sel parents_first (article_place a (mk_article i t ps))) ps qs ->
    mapped_act_child f sel parents_first a (AArticle (mk_article i t ps)) (AArticle (mk_article i t qs)).
Definition mapped_act f sel parents_first (a b : act) : Prop :=
  act_identifier b = act_identifier a /\ act_publication_date b = act_publication_date a /\
  act_subject b = act_subject a /\ act_preamble b = act_preamble a /\
  Forall2 (mapped_act_child f sel parents_first a) (act_children a) (act_children b).

(* modifiers without effects, and modifiers that also write down where they are called *)
Definition pure (f : reference -> sae -> sae) : modifier unit := fun r s st => Ok (f r s, st).
Definition logged {S} (m : modifier S) : modifier (S * list reference) := fun r s st =>
  ' (s', st') <- m r s (fst st) ;; Ok (s', (st', snd st ++ [r])).
(* functions that change only an element's own data, and keep it constructible *)
Definition own_data_only (f : reference -> sae -> sae) : Prop := forall r s,
  s_kind (f r s) = s_kind s /\ s_identifier (f r s) = s_identifier s /\ s_children (f r s) = s_children s /\
  (well_formed s -> well_formed (f r s)).
(* modifiers that change only an element's own data *)
Definition keeps_place {S} (m : modifier S) : Prop := forall r s st s' st', m r s st = Ok (s', st') ->
  s_kind s' = s_kind s /\ s_identifier s' = s_identifier s /\ s_children s' = s_children s.
