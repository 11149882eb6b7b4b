(* C04, C05, C06, C08: ordering and numbering of identifiers. *)
From Coq Require Import Sorting.Sorted.
From Verif Require Import PyBase NumModel NumSpec IdModel IdSpec IdProofs.
Local Open Scope Z_scope.

(** C04: identifier_less compares the readings of the two identifiers, is a strict weak order,
    and only ever fails with the ValueError of int() on digits such as superscripts. *)
Theorem C04_never_type_error : forall a b e, identifier_less a b = Err e -> e = ValueError.
Proof. exact identifier_less_errors. Qed.
Print Assumptions C04_never_type_error.
Example C04_never_type_error_ex :
  identifier_less [178%N] (u8 "1") = Err ValueError /\ isdigit_chr 178 = true.
Proof. split; vm_compute; reflexivity. Qed.

Theorem C04_compares_readings : forall a b pa pb,
  decimal_id a -> decimal_id b -> reads_as a pa -> reads_as b pb ->
  (identifier_less a b = Ok true <-> before pa pb) /\
  (identifier_less a b = Ok false <-> ~ before pa pb).
Proof.
  intros a b pa pb Ha Hb Ra Rb.
  destruct (identifier_less_spec a b pa pb Ha Hb Ra Rb) as (r & -> & H).
  destruct r; split; split; intros H2; try congruence;
    first [now apply H | exfalso; apply H2; now apply H
          | apply H in H2; discriminate | intros H3; apply H in H3; discriminate].
Qed.
Print Assumptions C04_compares_readings.
Example C04_compares_readings_ex :
  identifier_less (u8 "2a") (u8 "10a") = Ok true /\ identifier_less (u8 "12/B") (u8 "12/A") = Ok false.
Proof. split; vm_compute; reflexivity. Qed.

Theorem C04_always_readable : forall s, exists ps, reads_as s ps.
Proof. exact reads_exists. Qed.
Print Assumptions C04_always_readable.
Theorem C04_reading_unique : forall s ps qs, decimal_id s -> reads_as s ps -> reads_as s qs -> ps = qs.
Proof. exact reads_unique. Qed.
Print Assumptions C04_reading_unique.

Theorem C04_irreflexive : forall a, identifier_less a a <> Ok true.
Proof. exact identifier_less_irrefl. Qed.
Print Assumptions C04_irreflexive.
Theorem C04_asymmetric : forall a b, identifier_less a b = Ok true -> identifier_less b a <> Ok true.
Proof. exact identifier_less_asym. Qed.
Print Assumptions C04_asymmetric.
Theorem C04_transitive : forall a b c,
  identifier_less a b = Ok true -> identifier_less b c = Ok true -> identifier_less a c = Ok true.
Proof. exact identifier_less_trans. Qed.
Print Assumptions C04_transitive.
Theorem C04_incomparable : forall a b pa pb,
  decimal_id a -> decimal_id b -> reads_as a pa -> reads_as b pb ->
  (identifier_less a b = Ok false /\ identifier_less b a = Ok false) <-> pa = pb.
Proof. exact identifier_incomparable. Qed.
Print Assumptions C04_incomparable.
Example C04_incomparable_ex :
  identifier_less (u8 "1") (u8 "01") = Ok false /\ identifier_less (u8 "01") (u8 "1") = Ok false.
Proof. split; vm_compute; reflexivity. Qed.

(** C05: on numeric identifiers the successor test is exactly [numeric_successor]; within one
    slash style it moves forward in identifier order; chains never repeat, in any style. *)
Theorem C05_successor : forall s s' n l m k, plain_letter l -> plain_letter k ->
  exists r, is_next_numeric_identifier (numeric_id s n l) (numeric_id s' m k) = Ok r /\
            (r = true <-> numeric_successor n l m k).
Proof. exact numeric_next_spec. Qed.
Print Assumptions C05_successor.
Example C05_successor_ex : numeric_id true 12 (Some 98%N) = u8 "12/b" /\
  is_next_numeric_identifier (u8 "12/a") (u8 "12/b") = Ok true /\
  is_next_numeric_identifier (u8 "12/a") (u8 "13") = Ok true /\
  is_next_numeric_identifier (u8 "12") (u8 "14") = Ok false.
Proof. repeat split; vm_compute; reflexivity. Qed.

Theorem C05_forward : forall s n l m k, plain_letter l -> plain_letter k ->
  is_next_numeric_identifier (numeric_id s n l) (numeric_id s m k) = Ok true ->
  identifier_less (numeric_id s n l) (numeric_id s m k) = Ok true.
Proof.
  intros s n l m k Hl Hk H. apply numeric_less; auto.
  destruct (numeric_next_spec s s n l m k Hl Hk) as (r & E & Hr). apply Hr. congruence.
Qed.
Print Assumptions C05_forward.

Theorem C05_no_repeats : forall (l : list (bool * N * option N)),
  Forall (fun '(_, _, k) => plain_letter k) l ->
  Sorted (fun '(s, n, c) '(s', m, d) =>
     is_next_numeric_identifier (numeric_id s n c) (numeric_id s' m d) = Ok true) l ->
  NoDup (map (fun '(s, n, c) => numeric_id s n c) l).
Proof. exact numeric_chain_nodup. Qed.
Print Assumptions C05_no_repeats.
Example C05_no_repeats_ex :
  let l := [(true, 9, None); (true, 9, Some 97); (false, 9, Some 98); (true, 10, None)]%N in
  Forall (fun '(_, _, k) => plain_letter k) l /\
  Sorted (fun '(s, n, c) '(s', m, d) =>
     is_next_numeric_identifier (numeric_id s n c) (numeric_id s' m d) = Ok true) l.
Proof.
  cbv zeta. split.
  - repeat constructor; vm_compute; discriminate.
  - repeat constructor.
Qed.

(* with mixed styles a successor can be earlier in identifier order *)
Theorem C05_mixed_refuted : exists s s' n l m k, plain_letter l /\ plain_letter k /\
  is_next_numeric_identifier (numeric_id s n l) (numeric_id s' m k) = Ok true /\
  identifier_less (numeric_id s' m k) (numeric_id s n l) = Ok true.
Proof.
  exists false, true, 1%N, (Some 97%N), 1%N, (Some 98%N).
  repeat split; try (vm_compute; reflexivity); vm_compute; discriminate.
Qed.
Print Assumptions C05_mixed_refuted.

(** C06: on article identifiers the successor test is exactly [article_successor]; it moves
    forward in identifier order, never crosses between plain and book-prefixed numbers, and
    chains never repeat. *)
Theorem C06_successor : forall b n l c m k, article_letter l -> article_letter k ->
  exists r, article_is_next_identifier (article_id b n l) (article_id c m k) = Ok r /\
            (r = true <-> article_successor b n l c m k).
Proof. exact article_next_spec. Qed.
Print Assumptions C06_successor.
Example C06_successor_ex : article_id (Some 3%N) 12 (Some (u8 "GY")) = u8 "3:12/GY" /\
  article_is_next_identifier (u8 "3:12/GY") (u8 "3:12/H") = Ok true /\
  article_is_next_identifier (u8 "3:12/GY") (u8 "4:1") = Ok true /\
  article_is_next_identifier (u8 "3:12/GY") (u8 "4:2") = Ok false.
Proof. repeat split; vm_compute; reflexivity. Qed.

Theorem C06_forward : forall b n l c m k, article_letter l -> article_letter k ->
  article_is_next_identifier (article_id b n l) (article_id c m k) = Ok true ->
  identifier_less (article_id b n l) (article_id c m k) = Ok true /\
  (b = None <-> c = None).
Proof.
  intros b n l c m k Hl Hk H. split; [now apply article_next_less|].
  destruct (article_next_spec b n l c m k Hl Hk) as (r & E & Hr).
  assert (H2 : article_successor b n l c m k) by (apply Hr; congruence).
  inversion H2; split; congruence.
Qed.
Print Assumptions C06_forward.

Theorem C06_no_repeats : forall (l : list (option N * N * option pystr)),
  Forall (fun '(_, _, k) => article_letter k) l ->
  Sorted (fun '(b, n, x) '(c, m, y) =>
     article_is_next_identifier (article_id b n x) (article_id c m y) = Ok true) l ->
  NoDup (map (fun '(b, n, x) => article_id b n x) l).
Proof. exact article_chain_nodup. Qed.
Print Assumptions C06_no_repeats.
Example C06_no_repeats_ex :
  let l := [(Some 1, 9, None); (Some 1, 9, Some (u8 "A")); (Some 1, 10, None); (Some 2, 1, None)]%N in
  Forall (fun '(_, _, k) => article_letter k) l /\
  Sorted (fun '(b, n, x) '(c, m, y) =>
     article_is_next_identifier (article_id b n x) (article_id c m y) = Ok true) l.
Proof.
  cbv zeta. split.
  - repeat constructor. 
  - repeat constructor.
Qed.

(** C08: cut_by_identifier keeps exactly the items with lo <= identifier <= hi, in order;
    items without identifier are dropped; from a sorted list it cuts one contiguous piece. *)
Theorem C08_interval : forall E (ident : E -> option pystr) lo hi (l : list E),
  decimal_id lo -> decimal_id hi ->
  (forall e i, In e l -> ident e = Some i -> decimal_id i) ->
  exists r, cut_by_identifier ident l lo hi = Ok r /\
    picks (fun e => exists i, ident e = Some i /\ not_after lo i /\ not_after i hi) l r.
Proof. exact @cut_spec. Qed.
Print Assumptions C08_interval.
Example C08_interval_ex : cut_by_identifier Some
  [u8 "1"; u8 "2"; u8 "2a"; u8 "10"; u8 "11"] (u8 "2") (u8 "10") = Ok [u8 "2"; u8 "2a"; u8 "10"].
Proof. vm_compute. reflexivity. Qed.

Theorem C08_contiguous : forall E (ident : E -> option pystr) lo hi (l r : list E),
  decimal_id lo -> decimal_id hi ->
  (forall e, In e l -> exists i, ident e = Some i /\ decimal_id i) ->
  Sorted (fun x y => exists i j, ident x = Some i /\ ident y = Some j /\ identifier_less i j = Ok true) l ->
  cut_by_identifier ident l lo hi = Ok r ->
  exists before_part after_part, l = before_part ++ r ++ after_part.
Proof. exact @cut_contiguous. Qed.
Print Assumptions C08_contiguous.
