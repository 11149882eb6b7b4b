(* Independent specification of what semantic parsing leaves alone, reads and stores. *)
From Coq Require Import Permutation Sorted.
From Verif Require Import PyBase LineModel LineSpec DateModel RefModel TreeModel TreeSpec SemModel.
Local Open Scope Z_scope.

(** * The text without semantic data *)

(* An element with the semantic fields of every element that can carry them removed.  Block
   amendment containers, and all that is inside them, are kept as they are. *)
Fixpoint bare (e : sae) : sae :=
  match e with
  | mk_sae KBlockAmendmentContainer _ _ _ _ _ _ => e
  | mk_sae k i t n cs w _ =>
      mk_sae k i t n
        (match cs with
         | None => None
         | Some l => Some (map (fun c => match c with ChSae s => ChSae (bare s) | _ => c end) l)
         end) w NO_META
  end.
Definition bare_article (a : article) : article :=
  mk_article (a_identifier a) (a_title a) (map bare (a_paragraphs a)).
Definition bare_child (c : act_child) : act_child :=
  match c with AArticle a => AArticle (bare_article a) | AStruct _ => c end.
Definition bare_act (a : act) : act :=
  mk_act (act_identifier a) (act_publication_date a) (act_subject a) (act_preamble a)
         (map bare_child (act_children a)).

(** * The elements that carry semantic data, in document order *)

Fixpoint carriers (e : sae) : list sae :=
  match e with
  | mk_sae KBlockAmendmentContainer _ _ _ _ _ _ => []
  | mk_sae _ _ _ _ None _ _ => [e]
  | mk_sae _ _ _ _ (Some cs) _ _ =>
      e :: flat_map (fun c => match c with ChSae s => carriers s | _ => [] end) cs
  end.
Definition carriers_of (a : act) : list sae :=
  flat_map (fun x => flat_map carriers (a_paragraphs x)) (act_articles a).
Definition metas (e : sae) : list sae_meta := map s_meta (carriers e).

(* no element has been parsed yet *)
Definition unparsed (e : sae) : Prop := Forall (fun x => m_semantic (s_meta x) = None) (carriers e).
Definition unparsed_act (a : act) : Prop := Forall (fun x => m_semantic (s_meta x) = None) (carriers_of a).

(** * What is read *)

(* the text of an element: its text, or its introduction *)
Definition own_text (e : sae) : option pystr :=
  match s_text e with Some t => Some t | None => s_intro e end.

(* a text together with the texts it is read between *)
Record reading := mk_reading { rd_text : option pystr; rd_before : pystr; rd_after : pystr }.

(* In document order: an element with a text is read after the introductions of the elements
   around it and before their closing texts; an introduction is read without what follows it. *)
Fixpoint readings (e : sae) (before after : pystr) : list reading :=
  match e with
  | mk_sae KBlockAmendmentContainer _ _ _ _ _ _ => []
  | mk_sae _ _ (Some t) _ _ _ _ => [mk_reading (Some t) before after]
  | mk_sae _ _ None n cs w _ =>
      mk_reading n before [] ::
      match cs with
      | None => []
      | Some l =>
          flat_map (fun c => match c with
            | ChSae s =>
                readings s (before ++ match n with Some x => x ++ u8 " " | None => [] end)
                           (match w with Some x => u8 " " ++ x | None => [] end ++ after)
            | _ => []
            end) l
      end
  end.
Definition readings_of (a : act) : list reading :=
  flat_map (fun x => flat_map (fun p => readings p [] []) (a_paragraphs x)) (act_articles a).

(* The end of a list item: closing conjunctions and separators are cut off, each kind at most
   once and in a fixed order; a full stop is added where a sentence has to end. *)
Inductive cut_ends : list pystr -> pystr -> pystr -> Prop :=
| cut_none s : cut_ends [] s s
| cut_one j js s r : cut_ends js s r -> cut_ends (j :: js) (s ++ j) r
| cut_keep j js s r : (forall a, s <> a ++ j) -> cut_ends js s r -> cut_ends (j :: js) s r.
Definition LIST_ENDS : list pystr :=
  [u8 " és"; u8 " valamint"; u8 " illetve"; u8 " vagy"; u8 ";"; u8 ","].
Definition closed_sentence (s : pystr) : Prop := exists a c, s = a ++ [c] /\ In c (u8 ".:!?").
Definition item_text (s after r : pystr) : Prop :=
  exists t, cut_ends LIST_ENDS s t /\
    ((after <> [] /\ r = t) \/
     (after = [] /\ closed_sentence t /\ r = t) \/
     (after = [] /\ t <> [] /\ ~ closed_sentence t /\ r = t ++ u8 ".")).

(* texts that the grammar is run on *)
Definition worth_reading (s : pystr) : Prop :=
  Z.of_nat (List.length s) <= 10000 /\
  exists w a b, In w [u8 ")"; u8 "§"; u8 "törvén"; u8 "hely"; u8 "hatály"; u8 "Hatály"] /\ s = a ++ w ++ b.

(** * What is stored *)

(* the act an abbreviation stands for after some introductions: the last one counts *)
Definition stands_for (l : list act_id_abbreviation) (abbreviation act : pystr) : Prop :=
  exists l1 l2, l = l1 ++ mk_abbreviation abbreviation act :: l2 /\
    Forall (fun x => ab_abbreviation x <> abbreviation) l2.
Definition meaning (l : list act_id_abbreviation) (m : abbrev_map) : Prop :=
  forall k v, m k = Some v <-> stands_for l k v.

(* positions relative to the start of the text; references that begin before it are cut *)
Definition shift_reference (m : abbrev_map) (before : nat) (r : outgoing_reference) : outgoing_reference :=
  mk_outgoing (Z.max 0 (or_start r - Z.of_nat before)) (or_end r - Z.of_nat before)
              (resolve_abbreviations (or_reference r) m).
(* references whose last character is in the text *)
Definition ends_inside (before len : nat) (r : outgoing_reference) : Prop :=
  Z.of_nat before < or_end r <= Z.of_nat before + Z.of_nat len.
Inductive kept_references (m : abbrev_map) (before len : nat)
  : list outgoing_reference -> list outgoing_reference -> Prop :=
| kept_nil : kept_references m before len [] []
| kept_in r l k : ends_inside before len r -> kept_references m before len l k ->
    kept_references m before len (r :: l) (shift_reference m before r :: k)
| kept_out r l k : ~ ends_inside before len r -> kept_references m before len l k ->
    kept_references m before len (r :: l) k.

(* order of positions *)
Definition position_le (a b : outgoing_reference) : Prop :=
  or_start a < or_start b \/ (or_start a = or_start b /\ or_end a <= or_end b).

(* What is stored about one reading, when [known] was introduced by earlier ones *)
Definition stored (an : analyzer) (known : list act_id_abbreviation) (rd : reading) (m : sae_meta) : Prop :=
  match rd_text rd with
  | None => m = mk_meta (Some []) (Some []) (Some [])
  | Some s =>
      exists t, item_text s (rd_after rd) t /\
      let whole := rd_before rd ++ t ++ rd_after rd in
      (~ worth_reading whole -> m = mk_meta (Some []) (Some []) (Some [])) /\
      (worth_reading whole -> exists a f found refs,
         an whole = Some a /\ meaning (known ++ an_abbreviations a) f /\
         kept_references f (List.length (rd_before rd)) (List.length t) (an_references a) found /\
         Permutation found refs /\ StronglySorted position_le refs /\
         m = mk_meta (Some (an_abbreviations a)) (Some refs)
                     (Some (map (fun s => sem_resolve s f) (an_semantic a))))
  end.

(* reading after reading, each one knowing what the ones before it introduced *)
Inductive stored_all (an : analyzer)
  : list act_id_abbreviation -> list reading -> list sae_meta -> list act_id_abbreviation -> Prop :=
| stored_end known : stored_all an known [] [] known
| stored_next known rd m ab rds ms after : stored an known rd m -> m_abbreviations m = Some ab ->
    stored_all an (known ++ ab) rds ms after -> stored_all an known (rd :: rds) (m :: ms) after.

(** * Texts that can be read at all *)

(* Something is left of the text after cutting, the grammar accepts it, and no two references
   end at the same place. *)
Definition readable (an : analyzer) (rd : reading) : Prop :=
  match rd_text rd with
  | None => True
  | Some s =>
      exists t, item_text s (rd_after rd) t /\
      (worth_reading (rd_before rd ++ t ++ rd_after rd) ->
       exists a, an (rd_before rd ++ t ++ rd_after rd) = Some a /\ NoDup (map or_end (an_references a)))
  end.
(* every element has a text or children *)
Definition complete (e : sae) : Prop := s_text e <> None \/ s_children e <> None.
Definition complete_act (a : act) : Prop := Forall complete (carriers_of a).

(* Some semantic data is still that of another version: missing, or the same. *)
Definition older_meta (m1 m : sae_meta) : Prop := m_semantic m = None \/ m = m1.
Definition older_act (a1 a : act) : Prop :=
  bare_act a = bare_act a1 /\
  Forall2 older_meta (map s_meta (carriers_of a1)) (map s_meta (carriers_of a)).

(** * Block amendments *)

(* An introduction ending with a colon, and then, in brackets, the beginning of the sentence that
   is amended.  All on one line. *)
Definition with_context (intro actual context : pystr) : Prop :=
  exists a space o c nl,
    intro = actual ++ space ++ [o] ++ context ++ [c] ++ nl /\ actual = a ++ u8 ":" /\
    In space [[]; u8 " "] /\ In [o; c] [u8 "()"; u8 "[]"] /\ In nl [[]; [10%N]] /\
    ~ In 10%N (actual ++ context).
(* as much as possible belongs to the introduction *)
Definition splits_into (intro actual context : pystr) : Prop :=
  with_context intro actual context /\
  forall actual' context', with_context intro actual' context' -> (List.length actual' <= List.length actual)%nat.

(* Blocks of lines: the first block is read as it is; each of the others starts outside quotes,
   with the number that follows that of the block before (for the second block: the number named
   by the amendment). *)
Inductive blocks (starts_as : line -> pystr -> Prop) (next : pystr -> pystr -> Prop)
  : list line -> pystr -> list (list line) -> Prop :=
| blocks_last before number b : b <> [] -> blocks starts_as next before number [b]
| blocks_more before number b l rest i bs : b <> [] ->
    open_after (before ++ b) = 0 -> starts_as l i -> next number i ->
    blocks starts_as next (before ++ b) i ((l :: rest) :: bs) ->
    blocks starts_as next before number (b :: (l :: rest) :: bs).
