(* Independent specification of references: what they denote and how they are ordered. *)
From Verif Require Import PyBase NumSpec IdModel IdSpec RefModel.
Local Open Scope Z_scope.

Definition nth_part (r : reference) (i : nat) : rpart := nth i (components r) RNone.

(* the first level that is specified *)
Definition first_level (r : reference) (i : nat) : Prop :=
  (i < 5)%nat /\ nth_part r i <> RNone /\ forall j, (j < i)%nat -> nth_part r j = RNone.

(** Order *)
Definition no_ranges (r : reference) : Prop :=
  Forall (fun p => match p with RRange _ _ => False | _ => True end) (components r).
Definition readable (r : reference) : Prop :=
  Forall (fun p => match p with RNone => True | RId s => decimal_id s | RRange a b => decimal_id a /\ decimal_id b end)
         (components r).

(* an identifier that is written the way its reading would be written again: no leading zeros, no
   exotic digits *)
Definition write_id (ps : list idpart) : pystr :=
  flat_map (fun p => match p with PStr s => s | PInt n => str_of_int n end) ps.
Definition canonical_id (s : pystr) : Prop :=
  decimal_id s /\ forall ps, reads_as s ps -> write_id ps = s.
Definition canonical (r : reference) : Prop :=
  Forall (fun p => match p with RNone => True | RId s => canonical_id s
                   | RRange a b => canonical_id a /\ canonical_id b end) (components r).

(* one component before another: missing first, then by reading *)
Inductive part_before : rpart -> rpart -> Prop :=
| pb_none s : part_before RNone (RId s)
| pb_ids a b pa pb : reads_as a pa -> reads_as b pb -> before pa pb -> part_before (RId a) (RId b).

(* the first level where the two differ decides *)
Definition ref_before (a b : reference) : Prop :=
  exists i, (i < 5)%nat /\ part_before (nth_part a i) (nth_part b i) /\
            forall j, (j < i)%nat -> nth_part a j = nth_part b j.

(** Positions in a law: the identifiers on the way down to a place.  For absolute references the
    first identifier is the act's, for relative ones the article's. *)
Definition path := list pystr.

(* [between lo x hi] in identifier order *)
Definition between (lo x hi : pystr) : Prop := not_after lo x /\ not_after x hi.

(* A gap-free reference of which at most the last component is a range: the levels above the
   last, then the first and last identifier at the last level. *)
Inductive denotes_interval : list rpart -> path -> pystr -> pystr -> Prop :=
| di_single ids s tail : Forall (eq RNone) tail ->
    denotes_interval (map RId ids ++ RId s :: tail) ids s s
| di_range ids a b tail : Forall (eq RNone) tail ->
    denotes_interval (map RId ids ++ RRange a b :: tail) ids a b.

(* the places inside: everything at or below an element of the interval *)
Definition within (ids : path) (lo hi : pystr) (p : path) : Prop :=
  exists x below, p = ids ++ x :: below /\ between lo x hi.

(* the levels from the act (absolute) or from the article (relative) *)
Definition levels (r : reference) : list rpart :=
  match r_act r with None => tl (components r) | Some _ => components r end.
Definition covers (r : reference) (p : path) : Prop :=
  exists ids lo hi, denotes_interval (levels r) ids lo hi /\ within ids lo hi p.

(* references contains() can be trusted on: gap free, at most the last component a range, the
   range not reversed *)
Definition simple_reference (r : reference) : Prop :=
  canonical r /\ exists ids lo hi, denotes_interval (levels r) ids lo hi /\ not_after lo hi.

(* a path of identifiers as they occur in laws *)
Definition canonical_path (p : path) : Prop := Forall canonical_id p.

(** Id strings *)
Definition string_safe (s : pystr) : Prop :=
  s <> [] /\ ~ In 95%N s /\ ~ In 45%N s /\
  contains_sub (u8 "slash") s = false /\ contains_sub (u8 "colon") s = false.
Definition part_safe (p : rpart) : Prop :=
  match p with
  | RNone => True
  | RId s => string_safe s
  | RRange a b => string_safe a /\ string_safe b
  end.

(** Ancestors: a reference with its deepest components removed. *)
Definition truncated (n : nat) (b a : reference) : Prop :=
  forall i, nth_part a i = if (i <? n)%nat then nth_part b i else RNone.
Definition ancestor (a b : reference) : Prop := a <> b /\ exists n, truncated n b a.
Definition gap_free (r : reference) : Prop :=
  forall i, nth_part r i = RNone -> nth_part r (S i) = RNone.

(** Ranges: two components that make a range (or agree) *)
Definition rangeable (p q : rpart) : Prop := p = q \/ (p <> RNone /\ part_before p q).

(* the deepest level that is specified *)
Definition deepest (r : reference) (i : nat) : Prop :=
  (i < 5)%nat /\ nth_part r i <> RNone /\ forall j, (i < j)%nat -> nth_part r j = RNone.

Definition with_act (a : option pystr) (r : reference) : reference :=
  mk_ref a (r_article r) (r_paragraph r) (r_point r) (r_subpoint r).
