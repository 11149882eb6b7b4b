(* Independent specification of how lists of identifiers are written in references and what they say. *)
From Coq Require Import Permutation Sorted.
From Verif Require Import PyBase NumModel IdModel RefModel RefSpec TreeModel SemModel GramModel GramSpec PegSpec PegSpec2.
Local Open Scope Z_scope.

(** * Lists *)

(* (1), (3)–(5) és (8): each identifier or range with its place in the text, of which the first character is the k-th *)
Inductive items_written (t : part_type) : Z -> pystr -> list addition -> Prop :=
| it_last k p x : item_written t p x -> items_written t k x [mk_add t p k (k + size x)]
| it_more k p x sep y l : item_written t p x -> separator sep -> items_written t (k + size x + size sep) y l ->
    items_written t k (x ++ sep ++ y) (mk_add t p k (k + size x) :: l).
Definition is_one (x : addition) : bool := match ad_data x with RId _ => true | _ => false end.
Definition in_text_order (l : list addition) : Prop := StronglySorted (fun x y => ad_start x < ad_start y) l.
(* Two neighbours among the identifiers become one range, ranges being left out; then all are put in the order of the text. *)
Definition joined (items out : list addition) : Prop :=
  exists g, grouped (filter is_one items ++ filter (fun x => negb (is_one x)) items) g /\ Permutation g out /\ in_text_order out.

(** * References *)

(* a list, its unit and a space before it, or nothing; the space is the k-th character.
   Identifiers such as ab) and a) cannot be compared, so there is no list of them. *)
Definition level_listed (n : nat) (k : Z) (w : pystr) (out : list addition) : Prop :=
  (w = [] /\ out = []) \/
  exists t x e items, level_of t = n /\ items_written t (k + 1) x items /\ unit_ending t e /\
    (t = PAlphabeticSubpoint -> length items = 1%nat) /\ joined items out /\ w = u8 " " ++ x ++ u8 " " ++ unit_text t ++ e.
Definition with_part (r : reference) (n : nat) (v : rpart) : reference :=
  match n with
  | 1%nat => mk_ref (r_act r) v (r_paragraph r) (r_point r) (r_subpoint r)
  | 2%nat => mk_ref (r_act r) (r_article r) v (r_point r) (r_subpoint r)
  | 3%nat => mk_ref (r_act r) (r_article r) (r_paragraph r) v (r_subpoint r)
  | _ => mk_ref (r_act r) (r_article r) (r_paragraph r) (r_point r) v
  end.
(* What is said from level n on, after the parts in r.  Every element of a list but the last is a reference of its own;
   what comes after the list belongs to the last one. *)
Inductive cites : nat -> list (list addition) -> reference -> Z -> Z -> list outgoing_reference -> Prop :=
| ci_end n r s e : cites n [] r s e [mk_outgoing s e r]
| ci_none n ls r s e out : cites (S n) ls r s e out -> cites n ([] :: ls) r s e out
| ci_last n x ls r s e out : cites (S n) ls (with_part r n (ad_data x)) s e out -> cites n ([x] :: ls) r s e out
| ci_more n x y l ls r s e out : cites n ((y :: l) :: ls) r (ad_start y) e out ->
    cites n ((x :: y :: l) :: ls) r s e (mk_outgoing s (ad_end x) (with_part r n (ad_data x)) :: out).
(* a reference whose first character is the k-th *)
Definition reference_listed (act : option pystr) (k : Z) (w : pystr) (out : list outgoing_reference) : Prop :=
  exists a p q s la lp lq ls,
    level_listed 1 (k - 1) a la /\ level_listed 2 (k - 1 + size a) p lp /\
    level_listed 3 (k - 1 + size a + size p) q lq /\ level_listed 4 (k - 1 + size a + size p + size q) s ls /\
    a ++ p ++ q ++ s = u8 " " ++ w /\ (s = [] \/ q <> [] \/ (a = [] /\ p = [])) /\
    cites 1 [la; lp; lq; ls] (no_parts act) k (k + size w) out.

(** * Sentences *)

(* references of an act *)
Inductive all_listed (act : pystr) : Z -> pystr -> list outgoing_reference -> Prop :=
| al_last k w out : reference_listed (Some act) k w out -> all_listed act k w out
| al_more k w out p s l : reference_listed (Some act) k w out -> separator p -> all_listed act (k + size w + size p) s l ->
    all_listed act k (w ++ p ++ s) (out ++ l).
Inductive act_and_listed : Z -> pystr -> list outgoing_reference -> list act_id_abbreviation -> Prop :=
| al_alone k a x y l : act_written a x y l -> act_and_listed k (x ++ y) [mk_outgoing k (k + size x) (no_parts (Some a))] l
| al_listed k a x y l s refs : act_written a x y l -> all_listed a (k + size x + size y + 1) s refs ->
    act_and_listed k (x ++ y ++ u8 " " ++ s) (mk_outgoing k (k + size x) (no_parts (Some a)) :: refs) l.
(* words, references and acts with their references; the first character is the k-th *)
Inductive cited : before -> Z -> pystr -> list outgoing_reference -> list act_id_abbreviation -> Prop :=
| cited_words b k v : words v -> after b v -> cited b k v [] []
| cited_reference b k u w out s l m : words u -> spaced u -> between b u -> reference_listed None (k + size u) w out ->
    cited Reference (k + size u + size w) s l m ->
    cited b k (u ++ w ++ s) (out ++ l) m
| cited_act b k u w s l l' m m' : words u -> spaced u -> between b u -> act_and_listed (k + size u) w l m ->
    cited Act (k + size u + size w) s l' m' ->
    cited b k (u ++ w ++ s) (l ++ l') (m ++ m').
