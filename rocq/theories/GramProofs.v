From Coq Require Import Lia Permutation Sorted.
From Coq Require Import ZifyBool ZifyNat ZifyN.
From Verif Require Import PyBase PyBaseFacts IdModel RefModel RefSpec TreeModel SemModel GramModel GramSpec.
Local Open Scope Z_scope.

(** * What the collector holds *)

Definition to_item (x : addition) : item := (ad_data x, ad_start x, ad_end x).
Definition held (k : nat) (acc : list addition) : list item :=
  match map to_item (at_level k acc) with [] => [NO_ITEM] | l => l end.
Definition to_add (d : deferred) : addition := mk_add (d_type d) (d_data d) (d_start d) (d_end d).

Definition holds (c : collector) (acc : list addition) : Prop :=
  co_articles c = held 1 acc /\ co_paragraphs c = held 2 acc /\ co_points c = held 3 acc /\ co_subpoints c = held 4 acc.

Lemma held_real k acc : Forall real acc -> forall v s e t, held k acc = (v, s, e) :: t -> at_level k acc <> [] -> v <> RNone.
Proof.
  intros R v s e t E NE. unfold held in E. destruct (at_level k acc) as [|x l] eqn:A; [contradiction|]. cbn [map] in E. injection E as <- _ _ _.
  apply (proj1 (Forall_forall _ _) R). assert (In x (at_level k acc)) by (rewrite A; now left). unfold at_level in H. apply filter_In in H. tauto.
Qed.
Lemma add_to_held k acc x : Forall real acc -> level_of (ad_type x) = k ->
  add_to_level (held k acc) (to_item x) = held k (acc ++ [x]).
Proof.
  intros R E. unfold held, at_level. rewrite filter_app, map_app. cbn [filter]. rewrite E, Nat.eqb_refl. cbn [map].
  fold (at_level k acc). destruct (at_level k acc) as [|y l] eqn:A; [reflexivity|]. cbn [map app].
  unfold add_to_level. unfold to_item at 1. assert (N : ad_data y <> RNone).
  { apply (proj1 (Forall_forall _ _) R). assert (In y (at_level k acc)) by (rewrite A; now left). unfold at_level in H. apply filter_In in H. tauto. }
  destruct (ad_data y); [contradiction|reflexivity|reflexivity].
Qed.
Lemma held_other k acc x : level_of (ad_type x) <> k -> held k (acc ++ [x]) = held k acc.
Proof.
  intros N. unfold held, at_level. rewrite filter_app. cbn [filter]. apply Nat.eqb_neq in N. rewrite N, app_nil_r. reflexivity.
Qed.
Lemma commit_holds c acc d : Forall real acc -> holds c acc -> co_deferred c = Some d ->
  holds (commit_deferred_item c) (acc ++ [to_add d]) /\ co_deferred (commit_deferred_item c) = None /\ co_act (commit_deferred_item c) = co_act c.
Proof.
  intros R (H1 & H2 & H3 & H4) E. unfold commit_deferred_item. rewrite E. unfold holds.
  change (d_data d, d_start d, d_end d) with (to_item (to_add d)).
  destruct (d_type d) eqn:T; cbn [co_articles co_paragraphs co_points co_subpoints co_deferred co_act];
    rewrite H1, H2, H3, H4; (split; [|split; reflexivity]);
    repeat match goal with |- _ /\ _ => split end;
    try (symmetry; apply held_other; cbn; rewrite T; discriminate);
    apply add_to_held; auto; cbn; rewrite T; reflexivity.
Qed.

Lemma mergeable_follows c d x : co_deferred c = Some d -> forall b, mergeable_into_deferred c (ad_type x) (ad_data x) = Ok b ->
  (b = true <-> follows (to_add d) x).
Proof.
  intros E b. unfold mergeable_into_deferred, follows. rewrite E. cbn [to_add ad_type ad_data].
  destruct (part_type_eqb (d_type d) (ad_type x)) eqn:T; cbn [negb].
  2:{ intros H. injection H as <-. split; [discriminate|]. intros [H _]. rewrite H in T. destruct (ad_type x); discriminate. }
  assert (T' : d_type d = ad_type x) by (destruct (d_type d), (ad_type x); try discriminate; reflexivity).
  rewrite T'. destruct (is_tuple (ad_data x)) eqn:I1; cbn [orb].
  { intros H. injection H as <-. split; [discriminate|]. intros (_ & f & p & q & _ & _ & Q & _). rewrite Q in I1. discriminate. }
  destruct (is_tuple (d_data d)) eqn:I2.
  { intros H. injection H as <-. split; [discriminate|]. intros (_ & f & p & q & _ & Q & _). rewrite Q in I2. discriminate. }
  destruct (part_is_next (ad_type x)) as [f|].
  2:{ intros H. injection H as <-. split; [discriminate|]. intros (_ & f & p & q & Q & _). discriminate. }
  destruct (d_data d) as [|p|]; try discriminate. destruct (ad_data x) as [|q|]; try discriminate. intros H. split.
  - intros ->. split; [reflexivity|]. exists f, p, q. auto.
  - intros (_ & f' & p' & q' & E1 & E2 & E3 & E4). injection E1 as <-. injection E2 as <-. injection E3 as <-. congruence.
Qed.

Lemma add_item_none c x : co_deferred c = None -> add_item c (ad_type x) (ad_data x) (ad_start x) (ad_end x) =
  Ok (defer c (mk_deferred (ad_type x) (ad_data x) (ad_start x) (ad_end x))).
Proof. intros E. unfold add_item, mergeable_into_deferred. rewrite E. cbn [bind]. unfold commit_deferred_item. now rewrite E. Qed.

Lemma grouped_real l out : grouped l out -> Forall real l -> Forall real out.
Proof.
  induction 1; intros R; [constructor| |].
  - apply Forall_cons_iff in R as [R1 R2]. constructor; auto.
  - apply Forall_cons_iff in R as [_ R]. apply Forall_cons_iff in R as [_ R]. constructor; [discriminate|auto].
Qed.

Lemma collects l : Forall real l ->
  (forall c c' acc, Forall real acc -> holds c acc -> co_deferred c = None -> add_all c l = Ok c' ->
     exists out, grouped l out /\ holds (commit_deferred_item c') (acc ++ out) /\ co_act (commit_deferred_item c') = co_act c) /\
  (forall c c' acc d, Forall real acc -> holds c acc -> co_deferred c = Some d -> real (to_add d) -> add_all c l = Ok c' ->
     exists out, grouped (to_add d :: l) out /\ holds (commit_deferred_item c') (acc ++ out) /\ co_act (commit_deferred_item c') = co_act c).
Proof.
  induction l as [|x l IH]; intros R.
  - split.
    + intros c c' acc Ra H E A. injection A as <-. exists []. rewrite app_nil_r. split; [constructor|].
      unfold commit_deferred_item. rewrite E. auto.
    + intros c c' acc d Ra H E Rd A. injection A as <-. exists [to_add d]. split; [apply gr_one; [discriminate|constructor]|].
      destruct (commit_holds c acc d Ra H E) as (? & _ & ?). auto.
  - apply Forall_cons_iff in R as [Rx R]. specialize (IH R) as [IH1 IH2]. split.
    + intros c c' acc Ra H E A. cbn [add_all] in A. rewrite add_item_none in A by exact E. cbn [bind] in A.
      destruct x as [t v s e]. exact (IH2 (defer c (mk_deferred t v s e)) c' acc _ Ra H eq_refl Rx A).
    + intros c c' acc d Ra H E Rd A. cbn [add_all] in A. apply bind_ok in A as (c1 & A1 & A).
      unfold add_item in A1. apply bind_ok in A1 as (b & M & A1). pose proof (mergeable_follows c d x E b M) as F. destruct b.
      * destruct (proj1 F eq_refl) as (T & f & p & q & E1 & E2 & E3 & E4). cbn [to_add ad_type ad_data] in *.
        unfold merge_to_deferred in A1. rewrite E, E2, E3 in A1. cbn [bind] in A1. injection A1 as <-.
        set (d' := mk_deferred (d_type d) (RRange p q) (d_start d) (ad_end x)) in *.
        destruct (commit_holds (defer c d') acc d' Ra H eq_refl) as (H1 & H2 & H3).
        assert (Ra' : Forall real (acc ++ [to_add d'])) by (apply Forall_app; split; [exact Ra|repeat constructor; discriminate]).
        destruct (IH1 _ _ _ Ra' H1 H2 A) as (out & G1 & G2 & G3). exists (to_add d' :: out).
        rewrite <- app_assoc in G2. split; [|split; [exact G2|exact (eq_trans G3 H3)]].
        change (to_add d') with (merged (to_add d) x p q). apply gr_two; auto. now apply F.
      * injection A1 as <-. destruct (commit_holds c acc d Ra H E) as (H1 & H2 & H3).
        set (c2 := commit_deferred_item c) in *. set (d' := mk_deferred (ad_type x) (ad_data x) (ad_start x) (ad_end x)) in *.
        assert (Ra' : Forall real (acc ++ [to_add d])) by (apply Forall_app; split; [exact Ra|repeat constructor; exact Rd]).
        destruct (IH2 (defer c2 d') c' _ d' Ra' H1 eq_refl Rx A) as (out & G1 & G2 & G3).
        rewrite <- app_assoc in G2. exists (to_add d :: out). split; [|split; [exact G2|exact (eq_trans G3 H3)]].
        apply gr_one; [|destruct x; exact G1]. intros y t Ey. injection Ey as <- _. intros Fo. apply F in Fo. discriminate.
Qed.

Theorem collected act l c : Forall real l -> add_all (new_collector act) l = Ok c ->
  exists out, grouped l out /\ holds (commit_deferred_item c) out /\ co_act (commit_deferred_item c) = act.
Proof.
  intros R A. destruct (collects l R) as [H _]. destruct (H (new_collector act) c [] ltac:(constructor)) as (out & G & Ho & Ac); auto.
  - repeat split.
  - exists out. auto.
Qed.

(** * Sorting *)

Lemma insert_item_perm x l : Permutation (insert_item x l) (x :: l).
Proof.
  induction l as [|y l IH]; cbn [insert_item]; [reflexivity|]. destruct (item_start x <=? item_start y); [reflexivity|].
  rewrite IH. constructor.
Qed.
Lemma sort_items_perm l : Permutation (sort_items l) l.
Proof. induction l as [|x l IH]; cbn [sort_items]; [reflexivity|]. rewrite insert_item_perm. now constructor. Qed.
Definition starts_le (x y : item) : Prop := item_start x <= item_start y.
Lemma insert_item_sorted x l : StronglySorted starts_le l -> StronglySorted starts_le (insert_item x l).
Proof.
  induction 1 as [|y l S IH F]; cbn [insert_item]; [repeat constructor|].
  destruct (item_start x <=? item_start y) eqn:E.
  - constructor; [constructor; auto|]. constructor; [red; lia|]. apply Forall_forall. intros z Hz.
    rewrite Forall_forall in F. specialize (F z Hz). unfold starts_le in *. lia.
  - constructor; [exact IH|]. apply (Permutation_Forall (Permutation_sym (insert_item_perm x l))). constructor; [red; lia|exact F].
Qed.
Lemma sort_items_sorted l : StronglySorted starts_le (sort_items l).
Proof. induction l as [|x l IH]; cbn [sort_items]; [constructor|now apply insert_item_sorted]. Qed.

Definition arranged (l : list item) : list item := match l with [_] => l | _ => sort_items l end.
Lemma arranged_perm l : Permutation (arranged l) l.
Proof. destruct l as [|x [|y l]]; [reflexivity|reflexivity|apply sort_items_perm]. Qed.
Lemma arranged_sorted l : StronglySorted starts_le (arranged l).
Proof. destruct l as [|x [|y l]]; [constructor|repeat constructor|apply sort_items_sorted]. Qed.

(** * What is yielded *)

Lemma set_arg_part r k v j : (k < 4)%nat -> nth_part (set_arg r k v) j = if (j =? S k)%nat then v else nth_part r j.
Proof.
  intros L. do 4 (destruct k as [|k]; [destruct j as [|[|[|[|[|j]]]]]; try reflexivity; unfold nth_part; cbn; now destruct j|]). lia.
Qed.
Lemma set_arg_act r k v : r_act (set_arg r k v) = r_act r.
Proof. now destruct k as [|[|[|k]]]. Qed.

Lemma iter_level_members k l so args out o : iter_level k l so args = (out, o) ->
  map or_reference out = map (fun x => set_arg args k (fst (fst x))) l /\ map or_end out = map snd l.
Proof.
  revert so out o. induction l as [|[[v s] e] l IH]; intros so out o H; cbn [iter_level] in H; [injection H as <- _; auto|].
  destruct (iter_level k l None args) as [rest o'] eqn:E. injection H as <- _. apply IH in E as [E1 E2]. cbn [map or_reference or_end fst snd]. now rewrite E1, E2.
Qed.

Lemma perm_in_iff {A} (l m : list A) x : Permutation l m -> (In x l <-> In x m).
Proof. intros P. split; apply Permutation_in; [exact P|now symmetry]. Qed.
Lemma last_split {A} (l : list A) d : l <> [] -> l = removelast l ++ [last l d].
Proof. apply app_removelast_last. Qed.

Lemma iter_levels_yield lv : forall k so args out o args', (k + length lv <= 4)%nat -> Forall (fun l => l <> []) lv ->
  iter_levels k lv so args = (out, o, args') ->
  r_act args' = r_act args /\ Forall (fun x => r_act (or_reference x) = r_act args) out /\
  (* the reference at the end *)
  (forall j, nth_part args' j = match nth_error lv (j - 1 - k) with
     | Some l => if (S k <=? j)%nat then fst (fst (last (arranged l) NO_ITEM)) else nth_part args j
     | None => nth_part args j end) /\
  (* the ones before: an item that is not the last of its level *)
  Forall (fun x => exists i l it, nth_error lv i = Some l /\ In it l /\ nth_part (or_reference x) (S (k + i)) = fst (fst it) /\
     (forall j, (j < S (k + i))%nat -> nth_part (or_reference x) j = nth_part args' j) /\
     (forall j, (S (k + i) < j)%nat -> nth_part (or_reference x) j = nth_part args j)) out /\
  (* nothing is lost *)
  (forall i l it, nth_error lv i = Some l -> In it l ->
     nth_part args' (S (k + i)) = fst (fst it) \/ exists x, In x out /\ nth_part (or_reference x) (S (k + i)) = fst (fst it)) /\
  length out = list_sum (map (fun l => (length l - 1)%nat) lv).
Proof.
  induction lv as [|l lv IH]; intros k so args out o args' L N H; cbn [iter_levels] in H.
  { injection H as <- _ <-. split; [reflexivity|]. split; [constructor|]. split; [intros j; now destruct (j - 1 - k)%nat|].
    split; [constructor|]. split; [intros [|i]; discriminate|reflexivity]. }
  apply Forall_cons_iff in N as [N1 N]. fold (arranged l) in H.
  destruct (iter_level k (removelast (arranged l)) so args) as [out1 o1] eqn:E1.
  set (la := last (arranged l) NO_ITEM) in *. set (o2 := match o1 with None => _ | Some _ => o1 end) in H.
  destruct (iter_levels (S k) lv o2 (set_arg args k (fst (fst la)))) as [[out2 o3] args2] eqn:E2. injection H as <- _ <-.
  cbn [length] in L.
  apply IH in E2 as (A & B & C & D & F & G); [|lia|exact N].
  apply iter_level_members in E1 as [E1 E1'].
  assert (NA : arranged l <> []).
  { intros Z. pose proof (Permutation_length (arranged_perm l)) as P. rewrite Z in P. destruct l; [contradiction|discriminate]. }
  pose proof (last_split (arranged l) NO_ITEM NA) as Sp. fold la in Sp.
  assert (I : forall it, In it l <-> In it (removelast (arranged l)) \/ it = la).
  { intros it. rewrite (perm_in_iff l (arranged l) it (Permutation_sym (arranged_perm l))). rewrite Sp at 1. rewrite in_app_iff. cbn. intuition. }
  assert (Kj : forall j, (j <= k)%nat -> nth_part args2 j = nth_part args j).
  { intros j Hj. rewrite C. destruct (nth_error lv _); [destruct (Nat.leb_spec (S (S k)) j); [lia|]|];
      (rewrite set_arg_part by lia; destruct (Nat.eqb_spec j (S k)); [lia|reflexivity]). }
  assert (Kk : nth_part args2 (S k) = fst (fst la)).
  { rewrite C. destruct (nth_error lv _); [destruct (Nat.leb_spec (S (S k)) (S k)); [lia|]|]; rewrite set_arg_part, Nat.eqb_refl by lia; reflexivity. }
  rewrite set_arg_act in A, B.
  split; [exact A|]. split.
  { apply Forall_app. split; [|exact B]. apply Forall_forall. intros x Hx.
    assert (Hy : In (or_reference x) (map or_reference out1)) by now apply in_map.
    rewrite E1 in Hy. apply in_map_iff in Hy as (it & Hy & _). rewrite <- Hy. apply set_arg_act. }
  split.
  { intros j. destruct (Nat.leb_spec (S k) j) as [Hj|Hj].
    - destruct (Nat.eq_dec j (S k)) as [->|Ne].
      + replace (S k - 1 - k)%nat with 0%nat by lia. cbn [nth_error]. exact Kk.
      + replace (j - 1 - k)%nat with (S (j - 1 - S k)) by lia. cbn [nth_error]. rewrite C.
        destruct (nth_error lv (j - 1 - S k)).
        * destruct (Nat.leb_spec (S (S k)) j); [reflexivity|lia].
        * rewrite set_arg_part by lia. destruct (Nat.eqb_spec j (S k)); [lia|reflexivity].
    - rewrite Kj by lia. now destruct (nth_error (l :: lv) (j - 1 - k)). }
  split.
  { apply Forall_app. split.
    - apply Forall_forall. intros x Hx. assert (Hy : In (or_reference x) (map or_reference out1)) by now apply in_map.
      rewrite E1 in Hy. apply in_map_iff in Hy as (it & Hy & Hit). exists 0%nat, l, it. rewrite Nat.add_0_r, <- Hy.
      split; [reflexivity|]. split; [apply I; now left|]. split; [rewrite set_arg_part, Nat.eqb_refl by lia; reflexivity|].
      split; intros j Hj.
      + rewrite Kj by lia. rewrite set_arg_part by lia. destruct (Nat.eqb_spec j (S k)); [lia|reflexivity].
      + rewrite set_arg_part by lia. destruct (Nat.eqb_spec j (S k)); [lia|reflexivity].
    - revert D. apply Forall_impl. intros x (i & l' & it & D1 & D2 & D3 & D4 & D5). exists (S i), l', it.
      replace (k + S i)%nat with (S k + i)%nat by lia. split; [exact D1|]. split; [exact D2|]. split; [exact D3|].
      split; [exact D4|]. intros j Hj. rewrite D5 by lia. rewrite set_arg_part by lia. destruct (Nat.eqb_spec j (S k)); [lia|reflexivity]. }
  split.
  { intros [|i] l' it Hl Hit.
    - cbn in Hl. injection Hl as <-. rewrite Nat.add_0_r. apply I in Hit as [Hit| ->]; [right|left; exact Kk].
      assert (Hy : In (set_arg args k (fst (fst it))) (map or_reference out1)).
      { rewrite E1. apply in_map_iff. exists it. auto. }
      apply in_map_iff in Hy as (x & Hy & Hx). exists x. split; [apply in_app_iff; now left|]. rewrite Hy, set_arg_part, Nat.eqb_refl by lia. reflexivity.
    - replace (k + S i)%nat with (S k + i)%nat by lia. destruct (F i l' it Hl Hit) as [Q|(x & Q1 & Q2)]; [now left|right].
      exists x. split; [apply in_app_iff; now right|exact Q2]. }
  rewrite app_length, G. cbn [map list_sum fold_right]. f_equal. rewrite <- (map_length or_reference out1), E1, map_length.
  rewrite <- (Permutation_length (arranged_perm l)). clearbody la. assert (Q : length (arranged l) = S (length (removelast (arranged l)))).
  { rewrite Sp at 1. rewrite app_length. cbn. lia. }
  exact (eq_sym (eq_trans (f_equal (fun n => (n - 1)%nat) Q) (Nat.sub_0_r _))).
Qed.
