(* What the HTML of an act shows (C48) and which ids it has (C49). *)
From Verif Require Import PyBase IdModel LineModel DateModel RefModel RefSpec TreeModel TreeSpec StructModel HtmlModel.
From Coq Require Import Permutation.
Local Open Scope Z_scope.

(** * Reading a tree *)

(* the text in an element, without tags *)
Fixpoint inner (n : node) : pystr :=
  match n with Node _ _ text children _ => text ++ flat_map (fun c => inner c ++ n_tail c) children end.
Definition inners (l : list node) : pystr := flat_map (fun c => inner c ++ n_tail c) l.
Definition no_space (s : pystr) : pystr := List.filter (fun c => negb (isspace_chr c)) s.
(* the values of id with what their elements say, in the order of the document *)
Fixpoint id_elements (n : node) : list (pystr * pystr) :=
  match n with Node _ attrs text children _ =>
    map (fun kv => (snd kv, no_space text)) (List.filter (fun kv => str_eqb (fst kv) (u8 "id")) attrs) ++ flat_map id_elements children end.

(* The same but for white space: a text that is white space only may be another. *)
Definition respaced (a b : pystr) : Prop := a = b \/ (no_space a = [] /\ no_space b = []).
Inductive reindented : node -> node -> Prop :=
| reindented_node tag attrs text text' cs cs' tail tail' : respaced text text' -> Forall2 reindented cs cs' -> respaced tail tail' ->
    (cs = [] -> text = text') -> reindented (Node tag attrs text cs tail) (Node tag attrs text' cs' tail').

(* What a file says once its tags are removed and its entities are replaced *)
Fixpoint strip_tags (inside : bool) (s : pystr) : pystr :=
  match s with
  | [] => []
  | c :: t => if inside then strip_tags (negb (c =? 62)%N) t else if (c =? 60)%N then strip_tags true t else c :: strip_tags false t
  end.
Fixpoint unescape (skip : nat) (s : pystr) : pystr :=
  match s with
  | [] => []
  | c :: t =>
      match skip with
      | S k => unescape k t
      | O =>
          if (c =? 38)%N && startswith (u8 "amp;") t then u8 "&" ++ unescape 4 t
          else if (c =? 38)%N && startswith (u8 "lt;") t then u8 "<" ++ unescape 3 t
          else if (c =? 38)%N && startswith (u8 "gt;") t then u8 ">" ++ unescape 3 t
          else c :: unescape 0 t
      end
  end.
Definition shown (file : pystr) : pystr := unescape 0 (strip_tags false file).
(* no tag or name of an attribute ends early *)
Inductive clean_tags : node -> Prop :=
| clean_node tag attrs text cs tail : ~ In 62%N tag -> Forall (fun kv => ~ In 62%N (fst kv)) attrs -> Forall clean_tags cs ->
    clean_tags (Node tag attrs text cs tail).

(** * Links *)

(* references that do not overlap, and are not empty *)
Definition good_positions (os : list outgoing_reference) : Prop :=
  Forall (fun o => 0 <= or_start o < or_end o) os /\
  ForallOrdPairs (fun a b => or_end a <= or_start b \/ or_end b <= or_start a) os.
(* [c] is the child of [n] that begins after [pos] characters of its text *)
Definition link_at (n : node) (pos : Z) (c : node) : Prop :=
  exists pre post, n_children n = pre ++ c :: post /\ pos = Z.of_nat (List.length (n_text n ++ inners pre)).
(* from a position up to another *)
Definition between_positions (i j : Z) (s : pystr) : pystr := firstn (Z.to_nat (j - i)) (skipn (Z.to_nat i) s).

(** * What an act says *)

Definition opt_string (s : option pystr) : pystr := match s with None => [] | Some t => t end.
Definition in_parentheses (s : option pystr) : list pystr := match s with None | Some [] => [] | Some t => [u8 "("; t; u8 ")"] end.
Definition label (k : sae_kind) (i : option pystr) : pystr := match header_prefix k i with Ok s => s | Err _ => [] end.
Definition struct_strings (e : structural_element) : list pystr :=
  [match formatted_identifier e with Ok s => s | Err _ => [] end; se_title e].
Definition quoted_strings (ls : list line) : list pystr := [u8 "„"] ++ map l_content ls ++ [u8 "”"].
(* labels, texts and titles, in order *)
Fixpoint sae_strings (s : sae) : list pystr :=
  match s with
  | mk_sae kind identifier text intro children wrap_up meta =>
      let inside := match children with None => [] | Some cs => flat_map child_strings cs end in
      match kind with
      | KBlockAmendmentContainer => in_parentheses intro ++ [u8 "„"] ++ inside ++ [u8 "”"] ++ in_parentheses wrap_up
      | _ =>
          label kind identifier ::
          match opt_true text with
          | Some t => [t]
          | None => [opt_string intro] ++ inside ++ [opt_string wrap_up]
          end
      end
  end
with child_strings (c : child) : list pystr :=
  match c with
  | ChSae s => sae_strings s
  | ChArticle a => article_strings a
  | ChQuoted ls => quoted_strings ls
  | ChStruct e => struct_strings e
  end
with article_strings (a : article) : list pystr :=
  match a with
  | mk_article identifier title paragraphs =>
      [identifier; u8 ". §"] ++ match title with None | Some [] => [] | Some t => [u8 "["; t; u8 "]"] end ++ flat_map sae_strings paragraphs
  end.
Definition act_child_strings (c : act_child) : list pystr :=
  match c with AStruct e => struct_strings e | AArticle a => article_strings a end.
Definition act_strings (a : act) : list pystr :=
  [act_identifier a; act_subject a; act_preamble a] ++ flat_map act_child_strings (act_children a).

(** * Ids *)

(* the elements that are to have an id of their own, where they are, and their labels; none is
   inside an amendment *)
Definition article_ids (a : article) : list (reference * pystr) :=
  let r := mk_ref None (RId (a_identifier a)) RNone RNone RNone in
  (r, a_identifier a ++ u8 ". §") ::
  map (fun rs => (fst rs, label (s_kind (snd rs)) (s_identifier (snd rs)))) (flat_map (nodes true r) (a_paragraphs a)).
Definition act_ids (a : act) : list (reference * pystr) := flat_map article_ids (act_articles a).
(* the ids of a tree that are not empty; those whose element also says something *)
Definition real_ids (n : node) : list (pystr * pystr) := List.filter (fun it => negb (str_eqb (fst it) [])) (id_elements n).
Definition labelled_ids (n : node) : list pystr := map fst (List.filter (fun it => negb (str_eqb (snd it) [])) (real_ids n)).

(* different articles have different identifiers, and so do different elements of an element; only
   paragraphs may lack one *)
Definition elements_in (s : sae) : list sae :=
  match s_children s with
  | None => []
  | Some cs => flat_map (fun c => match c with ChSae x => match s_kind x with KBlockAmendmentContainer => [] | _ => [x] end | _ => [] end) cs
  end.
Definition distinct_children (s : sae) : Prop :=
  NoDup (map s_identifier (elements_in s)) /\ Forall (fun c => s_identifier c <> None) (elements_in s).
Definition distinct_article (a : article) : Prop :=
  NoDup (map s_identifier (a_paragraphs a)) /\
  Forall (fun p => distinct_children p /\ Forall distinct_children (elements_in p)) (a_paragraphs a).
Definition distinct_act (a : act) : Prop :=
  NoDup (map a_identifier (act_articles a)) /\ Forall distinct_article (act_articles a).
(* identifiers that ids can hold (C22) *)
Definition safe_ids (a : act) : Prop := Forall (fun rl => Forall part_safe (tl (components (fst rl)))) (act_ids a).

(** * What can be shown *)

Definition links (s : sae) : list outgoing_reference := match m_outgoing (s_meta s) with None => [] | Some l => l end.
(* twice the distance of two indents is a number *)
Definition at_distance (l m : line) : Prop := exists z, f_int (f_mul (f_sub (l_indent l) (l_indent m)) (f_of_Z 2)) = Ok z.
Definition showable (c : child) : Prop :=
  match c with
  | ChSae s =>
      (s_children s <> None \/ (s_kind s <> KBlockAmendmentContainer /\ exists t, s_text s = Some t /\ t <> [])) /\
      (s_kind s <> KBlockAmendmentContainer -> good_positions (links s))
  | ChArticle _ => True
  | ChQuoted ls => (exists l, In l ls /\ not_empty_line l = true) /\ forall l m, In l ls -> In m ls -> at_distance l m
  | ChStruct e => exists f, formatted_identifier e = Ok f
  end.
(* all that is in an act *)
Definition showable_act (a : act) : Prop :=
  (forall x c, In (AArticle x) (act_children a) -> inside_article c x -> showable c) /\
  (forall e, In (AStruct e) (act_children a) -> showable (ChStruct e)).
