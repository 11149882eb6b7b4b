From Coq Require Import ZifyBool ZifyNat ZifyN.
From Verif Require Import PyBase PyBaseFacts NumModel NumSpec IdModel IdSpec IdProofs RefModel RefSpec RefProofs RefProofs2.
Local Open Scope Z_scope.

(** * make_range *)

Lemma no_ranges_parts r : no_ranges r ->
  part_single (r_article r) /\ part_single (r_paragraph r) /\ part_single (r_point r) /\ part_single (r_subpoint r).
Proof.
  intros H. unfold no_ranges, components in H.
  inversion H as [|? ? _ Q0]; subst. inversion Q0 as [|? ? H1 Q1]; subst. inversion Q1 as [|? ? H2 Q2]; subst.
  inversion Q2 as [|? ? H3 Q3]; subst. inversion Q3 as [|? ? H4 Q4]; subst. auto.
Qed.
Lemma readable_parts r : readable r ->
  part_readable (r_article r) /\ part_readable (r_paragraph r) /\ part_readable (r_point r) /\ part_readable (r_subpoint r).
Proof.
  intros H. unfold readable, components in H.
  inversion H as [|? ? _ Q0]; subst. inversion Q0 as [|? ? H1 Q1]; subst. inversion Q1 as [|? ? H2 Q2]; subst.
  inversion Q2 as [|? ? H3 Q3]; subst. inversion Q3 as [|? ? H4 Q4]; subst. auto.
Qed.
Lemma make_range_ends f l r : no_ranges f -> no_ranges l -> make_range f l = Ok r ->
  first_in_range r = with_act (r_act r) f /\ last_in_range r = with_act (r_act r) l /\
  (r_act f = r_act l -> r_act r = r_act f).
Proof.
  intros Hf Hl H. apply no_ranges_parts in Hf as (F1 & F2 & F3 & F4). apply no_ranges_parts in Hl as (L1 & L2 & L3 & L4).
  unfold make_range in H.
  apply bind_ok in H as (t1 & E1 & H). apply bind_ok in H as (t2 & E2 & H).
  apply bind_ok in H as (t3 & E3 & H). apply bind_ok in H as (t4 & E4 & H). injection H as <-.
  apply part_range_ok in E1 as [A1 B1]; auto. apply part_range_ok in E2 as [A2 B2]; auto.
  apply part_range_ok in E3 as [A3 B3]; auto. apply part_range_ok in E4 as [A4 B4]; auto.
  unfold first_in_range, last_in_range, with_act. cbn. rewrite A1, A2, A3, A4, B1, B2, B3, B4.
  split; [reflexivity|]. split; [reflexivity|]. intros <-. destruct (r_act f) as [[|c s]|]; reflexivity.
Qed.
Lemma make_range_spec f l : no_ranges f -> no_ranges l -> readable f -> readable l ->
  ((forall i, (1 <= i < 5)%nat -> rangeable (nth_part f i) (nth_part l i)) /\ exists r, make_range f l = Ok r) \/
  (~ (forall i, (1 <= i < 5)%nat -> rangeable (nth_part f i) (nth_part l i)) /\ make_range f l = Err AssertionError).
Proof.
  intros Hf Hl Rf Rl. apply no_ranges_parts in Hf as (F1 & F2 & F3 & F4). apply no_ranges_parts in Hl as (L1 & L2 & L3 & L4).
  apply readable_parts in Rf as (P1 & P2 & P3 & P4). apply readable_parts in Rl as (Q1 & Q2 & Q3 & Q4).
  unfold make_range.
  destruct (part_range_spec _ _ F1 L1 P1 Q1) as [[G1 [t1 ->]]|[N ->]]; cbn [bind].
  2:{ right. split; [|reflexivity]. intros H. apply N. exact (H 1%nat ltac:(lia)). }
  destruct (part_range_spec _ _ F2 L2 P2 Q2) as [[G2 [t2 ->]]|[N ->]]; cbn [bind].
  2:{ right. split; [|reflexivity]. intros H. apply N. exact (H 2%nat ltac:(lia)). }
  destruct (part_range_spec _ _ F3 L3 P3 Q3) as [[G3 [t3 ->]]|[N ->]]; cbn [bind].
  2:{ right. split; [|reflexivity]. intros H. apply N. exact (H 3%nat ltac:(lia)). }
  destruct (part_range_spec _ _ F4 L4 P4 Q4) as [[G4 [t4 ->]]|[N ->]]; cbn [bind].
  2:{ right. split; [|reflexivity]. intros H. apply N. exact (H 4%nat ltac:(lia)). }
  left. split; [|now eexists]. intros i Hi. do 5 (destruct i as [|i]; [solve [lia|assumption]|]). lia.
Qed.

(** * Id strings *)
Definition subst_chr (c : N) (w s : pystr) : pystr := flat_map (fun x => if N.eqb x c then w else [x]) s.

Lemma replace_single c w s : replace_str [c] w s = subst_chr c w s.
Proof.
  unfold replace_str. generalize (le_n (List.length s)). generalize (List.length s) at 2 3 as f.
  intros f. revert s. induction f as [|f IH]; intros [|x s] H; cbn in *; try reflexivity; try lia.
  rewrite N.eqb_sym, andb_true_r. destruct (N.eqb x c); cbn [app]; rewrite IH by lia; reflexivity.
Qed.

Definition comparable (a b : pystr) : bool := startswith a b || startswith b a.
Fixpoint tails (w : pystr) : list pystr := match w with [] => [] | _ :: t => w :: tails t end.
(* no nonempty tail of [v] is comparable with [w] *)
Definition no_overlap (v w : pystr) : bool := forallb (fun t => negb (comparable t w)) (tails v).

Lemma tails_in a : forall b, b <> [] -> In b (tails (a ++ b)).
Proof.
  induction a as [|x a IH]; intros b Hb.
  - destruct b; [congruence|]. now left.
  - cbn. right. now apply IH.
Qed.
Lemma no_overlap_spec v w a b : no_overlap v w = true -> v = a ++ b -> b <> [] -> comparable b w = false.
Proof.
  intros H -> Hb. unfold no_overlap in H. rewrite forallb_forall in H. apply negb_true_iff, H. now apply tails_in.
Qed.
Lemma startswith_app_comparable a : forall b r, startswith a (b ++ r) = true -> comparable a b = true.
Proof.
  induction a as [|x a IH]; intros [|y b] r H; unfold comparable; cbn in *; try reflexivity.
  apply andb_prop in H as [H1 H2]. apply N.eqb_eq in H1. subst y. rewrite N.eqb_refl. cbn [andb].
  exact (IH b r H2).
Qed.
Lemma startswith_subst c w s : forall u, startswith u (subst_chr c w s) = true ->
  startswith u s = true \/ exists u1 u2, u = u1 ++ u2 /\ u2 <> [] /\ comparable u2 w = true.
Proof.
  induction s as [|x s IH]; intros u H; [left; exact H|]. cbn in H.
  destruct u as [|y u]; [now left|]. destruct (N.eqb x c).
  - right. exists [], (y :: u). split; [reflexivity|]. split; [discriminate|]. eapply startswith_app_comparable; eauto.
  - cbn in H. apply andb_prop in H as [H1 H2]. destruct (IH u H2) as [H3|(u1 & u2 & -> & N & C)].
    + left. cbn. now rewrite H1, H3.
    + right. exists (y :: u1), u2. auto.
Qed.
Lemma subst_no_start c w v x s : no_overlap (tl v) w = true -> v <> [] ->
  startswith v (x :: s) = false -> startswith v (x :: subst_chr c w s) = false.
Proof.
  intros Ho Hv H. destruct v as [|y v]; [congruence|]. cbn in *. destruct (N.eqb y x); cbn in *; [|reflexivity].
  destruct (startswith v (subst_chr c w s)) eqn:E; [|reflexivity].
  apply startswith_subst in E as [E|(u1 & u2 & E & N & C)]; [congruence|].
  rewrite (no_overlap_spec v w u1 u2) in C by assumption. discriminate.
Qed.
Lemma replace_back_aux c w : w <> [] -> no_overlap (tl w) w = true -> forall s f,
  (List.length (subst_chr c w s) <= f)%nat -> contains_sub w s = false ->
  replace_aux f w [c] (subst_chr c w s) = s.
Proof.
  intros Hw Ho. induction s as [|x s IH]; intros f Hf Hc; [destruct f; reflexivity|].
  cbn [contains_sub] in Hc. apply orb_false_iff in Hc as [Hc1 Hc2].
  change (subst_chr c w (x :: s)) with ((if N.eqb x c then w else [x]) ++ subst_chr c w s) in *.
  destruct (N.eqb_spec x c) as [->|Hx].
  - rewrite app_length in Hf. destruct w as [|y w]; [congruence|]. destruct f as [|f]; [cbn in Hf; lia|].
    cbn [app replace_aux]. change (y :: w ++ subst_chr c (y :: w) s) with ((y :: w) ++ subst_chr c (y :: w) s).
    rewrite startswith_app. rewrite skipn_app, skipn_all, Nat.sub_diag. cbn [skipn app].
    f_equal. apply IH; [cbn in Hf; lia|exact Hc2].
  - destruct f as [|f]; [cbn in Hf; lia|]. cbn [app replace_aux].
    rewrite (subst_no_start c w w x s) by assumption. f_equal. apply IH; [cbn in Hf; lia|exact Hc2].
Qed.
Lemma replace_back c w s : w <> [] -> no_overlap (tl w) w = true -> contains_sub w s = false ->
  replace_str w [c] (subst_chr c w s) = s.
Proof. intros. unfold replace_str. now apply replace_back_aux. Qed.

Lemma subst_keeps_absent c w v s : v <> [] -> no_overlap (tl v) w = true -> no_overlap w v = true ->
  contains_sub v s = false -> contains_sub v (subst_chr c w s) = false.
Proof.
  intros Hv Ho1 Ho2. induction s as [|x s IH]; intros H; [exact H|].
  cbn [contains_sub] in H. apply orb_false_iff in H as [H1 H2]. specialize (IH H2).
  change (subst_chr c w (x :: s)) with ((if N.eqb x c then w else [x]) ++ subst_chr c w s).
  destruct (N.eqb_spec x c) as [->|Hx].
  - clear H1 H2 Ho1. induction w as [|y w IHw] in Ho2, IH |- *.
    { exact IH. }
    set (R := subst_chr c (y :: w) s) in *. clearbody R. revert IH Ho2. generalize (y :: w) as u. clear IHw.
    induction u as [|z u IHu]; intros HR Ho; [exact HR|].
    cbn [app contains_sub]. apply orb_false_iff. split.
    + destruct (startswith v (z :: u ++ R)) eqn:E; [|reflexivity].
      change (z :: u ++ R) with ((z :: u) ++ R) in E. apply startswith_app_comparable in E.
      pose proof (no_overlap_spec (z :: u) v [] (z :: u) Ho eq_refl ltac:(discriminate)) as C.
      unfold comparable in *. rewrite orb_comm in C. congruence.
    + apply IHu; [exact HR|]. unfold no_overlap in *. cbn in Ho. now apply andb_prop in Ho as [_ Ho].
  - cbn [app contains_sub]. apply orb_false_iff. split; [|exact IH]. now apply subst_no_start.
Qed.
Lemma subst_app c w a b : subst_chr c w (a ++ b) = subst_chr c w a ++ subst_chr c w b.
Proof. apply flat_map_app. Qed.
Lemma subst_notin c w s : ~ In c s -> subst_chr c w s = s.
Proof.
  induction s as [|x s IH]; intros H; [reflexivity|]. cbn. destruct (N.eqb_spec x c) as [->|]; [exfalso; apply H; now left|].
  cbn. f_equal. apply IH. intros Hin. apply H. now right.
Qed.
Lemma subst_comm c w d v s : c <> d -> ~ In c v -> ~ In d w ->
  subst_chr d v (subst_chr c w s) = subst_chr c w (subst_chr d v s).
Proof.
  intros N Hv Hw. induction s as [|x s IH]; [reflexivity|].
  change (subst_chr c w (x :: s)) with ((if N.eqb x c then w else [x]) ++ subst_chr c w s).
  change (subst_chr d v (x :: s)) with ((if N.eqb x d then v else [x]) ++ subst_chr d v s).
  rewrite !subst_app, IH. f_equal.
  destruct (N.eqb_spec x c) as [->|Hc].
  - destruct (N.eqb_spec c d); [congruence|]. rewrite (subst_notin d v w) by exact Hw. cbn. rewrite N.eqb_refl. now rewrite app_nil_r.
  - destruct (N.eqb_spec x d) as [->|Hd].
    + rewrite (subst_notin c w v) by exact Hv. cbn. rewrite N.eqb_refl. now rewrite app_nil_r.
    + cbn. destruct (N.eqb_spec x c); [congruence|]. destruct (N.eqb_spec x d); [congruence|]. reflexivity.
Qed.

(* undoing both replacements *)
Lemma unreplace s : contains_sub (u8 "slash") s = false -> contains_sub (u8 "colon") s = false ->
  replace_str (u8 "colon") (u8 ":") (replace_str (u8 "slash") (u8 "/")
    (replace_str (u8 ":") (u8 "colon") (replace_str (u8 "/") (u8 "slash") s))) = s.
Proof.
  intros H1 H2. rewrite !replace_single. rewrite subst_comm.
  - rewrite replace_back; [| discriminate | vm_compute; reflexivity |].
    + apply replace_back; [discriminate|vm_compute; reflexivity|exact H2].
    + apply subst_keeps_absent; [discriminate|vm_compute; reflexivity|vm_compute; reflexivity|exact H1].
  - discriminate.
  - cbn. intuition discriminate.
  - cbn. intuition discriminate.
Qed.

Lemma startswith_sep v c y : ~ In c v -> forall x, startswith v (x ++ c :: y) = true -> startswith v x = true.
Proof.
  induction v as [|z v IH]; intros Hc x H; [reflexivity|]. destruct x as [|a x]; cbn in *.
  - apply andb_prop in H as [H _]. apply N.eqb_eq in H. subst. exfalso. auto.
  - apply andb_prop in H as [H1 H2]. rewrite H1. cbn. apply IH; auto.
Qed.
Lemma contains_sep v c x y : v <> [] -> ~ In c v -> contains_sub v x = false -> contains_sub v y = false ->
  contains_sub v (x ++ c :: y) = false.
Proof.
  intros Hv Hc. induction x as [|a x IH]; intros Hx Hy.
  - cbn [app contains_sub]. rewrite Hy, orb_false_r. destruct v as [|z v]; [congruence|]. cbn.
    destruct (N.eqb_spec z c) as [->|]; [exfalso; apply Hc; now left|reflexivity].
  - cbn [app contains_sub] in *. apply orb_false_iff in Hx as [H1 H2]. rewrite IH by assumption. rewrite orb_false_r.
    destruct (startswith v (a :: x ++ c :: y)) eqn:E; [|reflexivity].
    change (a :: x ++ c :: y) with ((a :: x) ++ c :: y) in E. apply startswith_sep in E; [congruence|exact Hc].
Qed.

Definition text_ok (t : pystr) : Prop :=
  ~ In 95%N t /\ contains_sub (u8 "slash") t = false /\ contains_sub (u8 "colon") t = false.
Lemma part_text_ok p : part_safe p -> text_ok (rpart_text p).
Proof.
  destruct p as [|s|a b]; cbn.
  - intros _. split; [auto|]. split; reflexivity.
  - intros (_ & H1 & _ & H2 & H3). split; auto.
  - intros [(_ & A1 & _ & A2 & A3) (_ & B1 & _ & B2 & B3)]. split; [|split].
    + rewrite in_app_iff. cbn. intros [H|[H|H]]; auto. discriminate.
    + apply contains_sep; auto; [discriminate|cbn; intuition discriminate].
    + apply contains_sep; auto; [discriminate|cbn; intuition discriminate].
Qed.
Lemma part_text_back p : part_safe p -> rpart_of_text (rpart_text p) = p.
Proof.
  destruct p as [|s|a b]; unfold rpart_of_text; cbn [rpart_text part_safe].
  - reflexivity.
  - intros (H0 & _ & H1 & _). rewrite split_chr_none by exact H1. destruct s; [congruence|reflexivity].
  - intros [(_ & _ & A & _) (_ & _ & B & _)]. cbn [app]. rewrite split_chr_app by exact A.
    rewrite split_chr_none by exact B. reflexivity.
Qed.
Lemma id_string_inverse r : Forall part_safe (tl (components r)) ->
  from_relative_id_string (relative_id_string r) = Ok (with_act None r).
Proof.
  destruct r as [a p1 p2 p3 p4]. unfold components. cbn [tl r_act r_article r_paragraph r_point r_subpoint].
  intros H. inversion H as [|? ? H1 Q1]; subst. inversion Q1 as [|? ? H2 Q2]; subst.
  inversion Q2 as [|? ? H3 Q3]; subst. inversion Q3 as [|? ? H4 _]; subst.
  destruct (part_text_ok p1 H1) as (A1 & B1 & C1). destruct (part_text_ok p2 H2) as (A2 & B2 & C2).
  destruct (part_text_ok p3 H3) as (A3 & B3 & C3). destruct (part_text_ok p4 H4) as (A4 & B4 & C4).
  unfold from_relative_id_string, relative_id_string. cbn [r_article r_paragraph r_point r_subpoint map].
  assert (E : join_str (u8 "_") [rpart_text p1; rpart_text p2; rpart_text p3; rpart_text p4] =
    rpart_text p1 ++ 95%N :: rpart_text p2 ++ 95%N :: rpart_text p3 ++ 95%N :: rpart_text p4) by reflexivity.
  rewrite E. rewrite unreplace.
  - rewrite !split_chr_app by assumption. rewrite split_chr_none by assumption.
    now rewrite !part_text_back by assumption.
  - repeat (apply contains_sep; [discriminate|cbn; intuition discriminate|assumption|]). assumption.
  - repeat (apply contains_sep; [discriminate|cbn; intuition discriminate|assumption|]). assumption.
Qed.

(** * Abbreviations *)
Lemma resolve_idempotent r m : (forall x y, m x = Some y -> m y = None \/ m y = Some y) ->
  resolve_abbreviations (resolve_abbreviations r m) m = resolve_abbreviations r m.
Proof.
  intros H. destruct r as [[a|] p1 p2 p3 p4]; [|reflexivity]. unfold resolve_abbreviations. cbn. f_equal.
  destruct (m a) as [y|] eqn:E; cbn; [|now rewrite E]. destruct (H a y E) as [->| ->]; reflexivity.
Qed.
Lemma sref_resolve_idempotent r m : (forall x y, m x = Some y -> m y = None \/ m y = Some y) ->
  sref_resolve (sref_resolve r m) m = sref_resolve r m.
Proof.
  intros H. destruct r as [[a|] p1 p2 p3 p4 p5 p6]; [|reflexivity]. unfold sref_resolve. cbn. f_equal.
  destruct (m a) as [y|] eqn:E; cbn; [|now rewrite E]. destruct (H a y E) as [->| ->]; reflexivity.
Qed.

(** * The identifiers used in laws are canonical *)
Lemma canonical_from_reading s ps : decimal_id s -> reads_as s ps -> write_id ps = s -> canonical_id s.
Proof. intros D R W. split; [exact D|]. intros qs Q. now rewrite (reads_unique s qs ps D Q R). Qed.
Lemma str_of_int_N n : str_of_int (Z.of_N n) = dec_N n.
Proof. rewrite str_of_int_nonneg by lia. now rewrite N2Z.id. Qed.
Lemma numeric_canonical s n l : plain_letter l -> canonical_id (numeric_id s n l).
Proof.
  intros H. eapply canonical_from_reading; [now apply numeric_decimal|rewrite numeric_id_eq; apply reads_dec_text; now apply letter_text_nodigits|].
  unfold write_id. cbn [flat_map app]. rewrite str_of_int_N, numeric_id_eq. f_equal.
  destruct (letter_text s l); [reflexivity|]. cbn. now rewrite app_nil_r.
Qed.
Lemma article_canonical b n l : article_letter l -> canonical_id (article_id b n l).
Proof.
  intros H. destruct (reads_article b n l H) as (ps & R & E).
  eapply canonical_from_reading; [now apply article_decimal|exact R|]. subst ps.
  unfold write_id, article_id. destruct b as [b|]; cbn [app flat_map]; rewrite !str_of_int_N;
    destruct l as [l|]; cbn [flat_map]; rewrite ?app_nil_r, <- ?app_assoc; reflexivity.
Qed.
Lemma text_canonical t : no_digits t -> canonical_id t.
Proof.
  intros H. destruct t as [|c t].
  - apply (canonical_from_reading [] []); [constructor|constructor|reflexivity].
  - apply (canonical_from_reading _ [PStr (c :: t)]); [now apply no_digits_decimal|constructor; [discriminate|exact H]|].
    cbn. now rewrite app_nil_r.
Qed.

(* deciding it, for examples *)
Definition canonical_idb (s : pystr) : bool :=
  forallb (fun c => negb (isdigit_chr c) || match decimal_value c with Some _ => true | None => false end) s &&
  match split_identifier_to_parts s with Ok ps => str_eqb (write_id ps) s | Err _ => false end.
Lemma canonical_idb_ok s : canonical_idb s = true -> canonical_id s.
Proof.
  unfold canonical_idb. intros H. apply andb_prop in H as [H1 H2].
  assert (D : decimal_id s).
  { apply Forall_forall. intros c Hc Hd. rewrite forallb_forall in H1. specialize (H1 c Hc). rewrite Hd in H1. cbn in H1.
    unfold good_digit. destruct (decimal_value c) as [v|]; [now exists v|discriminate]. }
  destruct (reads_exists s) as [ps R]. rewrite (split_reads s ps D R) in H2. apply str_eqb_eq in H2.
  now apply (canonical_from_reading s ps).
Qed.
Definition canonicalb (r : reference) : bool :=
  forallb (fun p => match p with RNone => true | RId s => canonical_idb s
                    | RRange a b => canonical_idb a && canonical_idb b end) (components r).
Lemma canonicalb_ok r : canonicalb r = true -> canonical r.
Proof.
  unfold canonicalb. intros H. rewrite forallb_forall in H. apply Forall_forall. intros p Hp. specialize (H p Hp).
  destruct p as [|s|a b]; [exact I|now apply canonical_idb_ok|].
  apply andb_prop in H as [H1 H2]. split; now apply canonical_idb_ok.
Qed.
