From Coq Require Import Lia Permutation Sorted.
From Coq Require Import ZifyBool ZifyNat ZifyN.
From Verif Require Import PyBase PyBaseFacts IdModel RefModel RefSpec TreeModel SemModel GramModel GramSpec GramProofs.
Local Open Scope Z_scope.

(** * The references of a collector *)

Lemma held_nonempty k acc : held k acc <> [].
Proof. unfold held. now destruct (map to_item (at_level k acc)). Qed.
Lemma held_length k acc : (length (held k acc) - 1 = length (at_level k acc) - 1)%nat.
Proof. unfold held. rewrite <- (map_length to_item (at_level k acc)). now destruct (map to_item (at_level k acc)). Qed.
Lemma held_in k acc it : In it (held k acc) -> fst (fst it) = RNone \/ exists x, In x acc /\ level_of (ad_type x) = k /\ fst (fst it) = ad_data x.
Proof.
  unfold held. destruct (map to_item (at_level k acc)) as [|i l] eqn:E.
  - intros [<-|[]]. now left.
  - rewrite <- E. intros H. apply in_map_iff in H as (x & <- & H). right. exists x. unfold at_level in H. apply filter_In in H as [H1 H2].
    apply Nat.eqb_eq in H2. auto.
Qed.
Lemma in_held x acc : In x acc -> In (to_item x) (held (level_of (ad_type x)) acc).
Proof.
  intros H. assert (I : In (to_item x) (map to_item (at_level (level_of (ad_type x)) acc))).
  { apply in_map. apply filter_In. split; [exact H|apply Nat.eqb_refl]. }
  unfold held. now destruct (map to_item (at_level (level_of (ad_type x)) acc)).
Qed.

(* what is iterated over *)
Definition held_levels (out : list addition) := [held 1 out; held 2 out; held 3 out; held 4 out].

Lemma iter_override lv : forall k so args, (so <> None \/ lv <> []) -> snd (fst (iter_levels k lv so args)) <> None.
Proof.
  induction lv as [|l lv IH]; intros k so args H; cbn [iter_levels].
  - destruct H; [exact H|contradiction].
  - destruct (iter_level k _ so args) as [out o].
    match goal with |- context [iter_levels (S k) lv ?o2 ?a] => specialize (IH (S k) o2 a); destruct (iter_levels (S k) lv o2 a) as [[out' o'] args'] end.
    cbn [fst snd] in *. apply IH. left. now destruct o.
Qed.

Lemma collector_yields act l c so eo : Forall real l -> add_all (new_collector act) l = Ok c ->
  exists out refs o args, grouped l out /\ iter_levels 0 (held_levels out) so (no_parts act) = (refs, Some o, args) /\
    collector_iter c so eo = refs ++ [mk_outgoing o eo args].
Proof.
  intros R A. destruct (collected act l c R A) as (out & G & (H1 & H2 & H3 & H4) & Ac).
  unfold collector_iter. rewrite H1, H2, H3, H4, Ac.
  pose proof (iter_override (held_levels out) 0 so (no_parts act) ltac:(right; discriminate)) as N.
  change [held 1 out; held 2 out; held 3 out; held 4 out] with (held_levels out). fold (no_parts act).
  destruct (iter_levels 0 (held_levels out) so (no_parts act)) as [[refs o] args] eqn:E. cbn [fst snd] in N.
  destruct o as [o|]; [|contradiction]. exists out, refs, o, args. auto.
Qed.

Lemma held_levels_nonempty out : Forall (fun l => l <> []) (held_levels out).
Proof. repeat constructor; apply held_nonempty. Qed.
Lemma held_levels_nth out i : (i < 4)%nat -> nth_error (held_levels out) i = Some (held (S i) out).
Proof. intros L. do 4 (destruct i as [|i]; [reflexivity|]). lia. Qed.
Lemma level_range t : (1 <= level_of t <= 4)%nat.
Proof. destruct t; cbn; lia. Qed.
Lemma no_parts_nth act j : (1 <= j)%nat -> nth_part (no_parts act) j = RNone.
Proof. intros L. destruct j as [|j]; [lia|]. destruct j as [|[|[|[|j]]]]; try reflexivity. unfold nth_part. cbn. now destruct j. Qed.
Lemma nth_part_beyond r j : (5 <= j)%nat -> nth_part r j = RNone.
Proof. intros L. unfold nth_part. apply nth_overflow. cbn. lia. Qed.

Lemma grouped_covered l out : grouped l out -> forall x, In x l -> exists y, In y out /\ ad_type y = ad_type x /\ mentions (ad_data y) (ad_data x).
Proof.
  induction 1 as [|x l out _ G IH|x y a b l out F Ex Ey G IH]; intros z Hz; [destruct Hz| |].
  - destruct Hz as [<-|Hz]; [exists x; split; [now left|split; [reflexivity|now left]]|].
    destruct (IH z Hz) as (w & W1 & W2). exists w. split; [now right|exact W2].
  - destruct Hz as [<-|[<-|Hz]].
    + exists (merged x y a b). split; [now left|]. split; [reflexivity|]. right. exists a, b. rewrite Ex. auto.
    + exists (merged x y a b). split; [now left|]. split; [exact (proj1 F)|]. right. exists a, b. rewrite Ey. auto.
    + destruct (IH z Hz) as (w & W1 & W2). exists w. split; [now right|exact W2].
Qed.
Lemma grouped_sound l out : grouped l out -> forall y, In y out ->
  In y l \/ exists l1 x z a b l2, l = l1 ++ x :: z :: l2 /\ follows x z /\ ad_data x = RId a /\ ad_data z = RId b /\ y = merged x z a b.
Proof.
  induction 1 as [|x l out _ G IH|x y a b l out F Ex Ey G IH]; intros z Hz; [destruct Hz| |].
  - destruct Hz as [<-|Hz]; [left; now left|]. destruct (IH z Hz) as [H|(l1 & p & q & c & d & l2 & -> & H)]; [left; now right|].
    right. exists (x :: l1), p, q, c, d, l2. auto.
  - destruct Hz as [<-|Hz]; [right; exists [], x, y, a, b, l; auto|].
    destruct (IH z Hz) as [H|(l1 & p & q & c & d & l2 & -> & H)]; [left; right; now right|].
    right. exists (x :: y :: l1), p, q, c, d, l2. auto.
Qed.

Theorem collector_covers act l c so eo : Forall real l -> add_all (new_collector act) l = Ok c -> forall x, In x l ->
  exists o, In o (collector_iter c so eo) /\ mentions (nth_part (or_reference o) (level_of (ad_type x))) (ad_data x).
Proof.
  intros R A x Hx. destruct (collector_yields act l c so eo R A) as (out & refs & o & args & G & I & ->).
  apply iter_levels_yield in I as (_ & _ & _ & _ & F & _); [|cbn; lia|apply held_levels_nonempty].
  destruct (grouped_covered _ _ G x Hx) as (y & Hy & T & M). pose proof (level_range (ad_type y)) as L.
  destruct (F (level_of (ad_type y) - 1)%nat (held (level_of (ad_type y)) out) (to_item y)) as [Q|(z & Q1 & Q2)].
  - rewrite held_levels_nth by lia. f_equal. f_equal. lia.
  - now apply in_held.
  - exists (mk_outgoing o eo args). split; [apply in_app_iff; right; now left|]. rewrite <- T. cbn [or_reference].
    replace (S (0 + (level_of (ad_type y) - 1)))%nat with (level_of (ad_type y)) in Q by lia. rewrite Q. exact M.
  - exists z. split; [apply in_app_iff; now left|]. rewrite <- T.
    replace (S (0 + (level_of (ad_type y) - 1)))%nat with (level_of (ad_type y)) in Q2 by lia. rewrite Q2. exact M.
Qed.

Lemma last_in {A} (l : list A) d : l <> [] -> In (last l d) l.
Proof. intros N. rewrite (last_split l d N) at 2. apply in_app_iff. right. now left. Qed.
Lemma arranged_last l : l <> [] -> In (last (arranged l) NO_ITEM) l.
Proof.
  intros N. apply (perm_in_iff _ _ _ (arranged_perm l)). apply last_in. intros E. apply N.
  pose proof (arranged_perm l) as P. rewrite E in P. now apply Permutation_nil in P.
Qed.

(* a component: from where *)
Lemma held_comes l out k it : grouped l out -> In it (held k out) -> comes_from l k (fst (fst it)).
Proof.
  intros G H. apply held_in in H as [H|(y & H1 & H2 & H3)]; [now left|].
  destruct (grouped_sound _ _ G y H1) as [H|(l1 & x & z & a & b & l2 & E & F & Ex & Ez & ->)].
  - right. left. exists y. auto.
  - right. right. exists l1, x, z, a, b, l2. repeat split; auto; apply F.
Qed.

Theorem collector_sound act l c so eo : Forall real l -> add_all (new_collector act) l = Ok c -> forall o, In o (collector_iter c so eo) ->
  r_act (or_reference o) = act /\ forall k, (1 <= k)%nat -> comes_from l k (nth_part (or_reference o) k).
Proof.
  intros R A o Ho. destruct (collector_yields act l c so eo R A) as (out & refs & s & args & G & I & E). rewrite E in Ho.
  apply iter_levels_yield in I as (A1 & A2 & A3 & A4 & _); [|cbn; lia|apply held_levels_nonempty].
  assert (Q : forall k, (1 <= k)%nat -> comes_from l k (nth_part args k)).
  { intros k Hk. destruct (le_lt_dec 5 k) as [L|L]; [rewrite nth_part_beyond by exact L; now left|].
    rewrite A3, held_levels_nth by lia. replace (S (k - 1 - 0)) with k by lia. destruct (Nat.leb_spec 1 k); [|lia].
    apply held_comes with out; [exact G|]. apply arranged_last, held_nonempty. }
  apply in_app_iff in Ho as [Ho|[<-|[]]]; [|split; [exact A1|exact Q]].
  rewrite Forall_forall in A2, A4. split; [now apply A2|]. intros k Hk.
  destruct (A4 o Ho) as (i & l' & it & B1 & B2 & B3 & B4 & B5).
  assert (Li : (i < 4)%nat) by (apply (nth_error_Some (held_levels out)); congruence).
  rewrite held_levels_nth in B1 by exact Li. injection B1 as <-.
  destruct (Nat.lt_trichotomy k (S (0 + i))) as [L|[->|L]].
  - rewrite B4 by exact L. now apply Q.
  - rewrite B3. now apply held_comes with out.
  - rewrite B5, no_parts_nth by lia. now left.
Qed.

(* only the last one of a list gets the parts below *)
Theorem collector_nesting act l c so eo : Forall real l -> add_all (new_collector act) l = Ok c -> forall o, In o (collector_iter c so eo) ->
  exists k, (forall j, (j < k)%nat -> nth_part (or_reference o) j = nth_part (or_reference (last (collector_iter c so eo) o)) j) /\
            (forall j, (k < j)%nat -> nth_part (or_reference o) j = RNone).
Proof.
  intros R A o Ho. destruct (collector_yields act l c so eo R A) as (out & refs & s & args & G & I & E). rewrite E in *. rewrite last_last. cbn [or_reference].
  apply iter_levels_yield in I as (A1 & A2 & A3 & A4 & _); [|cbn; lia|apply held_levels_nonempty].
  apply in_app_iff in Ho as [Ho|[<-|[]]].
  - rewrite Forall_forall in A4. destruct (A4 o Ho) as (i & l' & it & B1 & B2 & B3 & B4 & B5). exists (S (0 + i)). split; [exact B4|].
    intros j Hj. rewrite B5, no_parts_nth by lia. reflexivity.
  - exists 4%nat. split; [reflexivity|]. intros j Hj. apply nth_part_beyond. lia.
Qed.

Theorem collector_count act l c so eo : Forall real l -> add_all (new_collector act) l = Ok c ->
  exists out, grouped l out /\
    length (collector_iter c so eo) = (1 + list_sum (map (fun k => length (at_level k out) - 1) [1; 2; 3; 4]))%nat.
Proof.
  intros R A. destruct (collector_yields act l c so eo R A) as (out & refs & s & args & G & I & E). rewrite E.
  apply iter_levels_yield in I as (_ & _ & _ & _ & _ & L); [|cbn; lia|apply held_levels_nonempty].
  exists out. split; [exact G|]. rewrite app_length, L. cbn [length held_levels map list_sum fold_right]. rewrite !held_length. lia.
Qed.

Lemma grouped_unique l out : grouped l out -> forall out', grouped l out' -> out = out'.
Proof.
  induction 1 as [|x l out N G IH|x y a b l out F Ex Ey G IH]; intros out' G'; inversion G'; subst; auto.
  - f_equal. auto.
  - exfalso. eapply N; eauto.
  - exfalso. match goal with H : forall _ _, _ -> ~ follows _ _ |- _ => eapply H; eauto end.
  - f_equal; [|auto]. congruence.
Qed.

(** * Spans *)

Inductive items_in_order : Z -> Z -> list item -> Prop :=
| ii_nil s e : s <= e -> items_in_order s e []
| ii_cons s e v a b l : s <= a -> a < b -> items_in_order b e l -> items_in_order s e ((v, a, b) :: l).
Lemma items_cons_inv s e v a b l : items_in_order s e ((v, a, b) :: l) -> s <= a /\ a < b /\ items_in_order b e l.
Proof. intros H. inversion H; subst. auto. Qed.
Lemma items_weaken s s' e l : items_in_order s e l -> s' <= s -> items_in_order s' e l.
Proof. intros H L. inversion H; subst; constructor; auto; lia. Qed.
Lemma items_le s e l : items_in_order s e l -> s <= e.
Proof. induction 1; lia. Qed.
Lemma order_weaken s s' e l : in_order s e l -> s' <= s -> in_order s' e l.
Proof. intros H L. inversion H; subst; constructor; auto; lia. Qed.
Lemma order_app s m e l l' : in_order s m l -> in_order m e l' -> in_order s e (l ++ l').
Proof.
  intros H. revert l'. induction H as [s m L|s m o l H1 H2 H IH]; intros l' H'; cbn [app].
  - eapply order_weaken; eauto.
  - constructor; auto.
Qed.
Lemma items_app_inv l1 : forall s e l2, items_in_order s e (l1 ++ l2) -> exists m, items_in_order s m l1 /\ items_in_order m e l2.
Proof.
  induction l1 as [|[[v a] b] l1 IH]; intros s e l2 H; cbn [app] in H.
  - exists s. split; [constructor; lia|exact H].
  - apply items_cons_inv in H as (H5 & H6 & H7). destruct (IH _ _ _ H7) as (m & M1 & M2). exists m. split; [constructor; auto|exact M2].
Qed.

Lemma iter_level_order k l args : forall so s m, items_in_order s m l -> (forall x, so = Some x -> x <= s) ->
  match so with
  | Some x => match l with
              | [] => iter_level k l so args = ([], so)
              | _ => exists out, iter_level k l so args = (out, None) /\ in_order x m out /\
                       exists o t, out = o :: t /\ or_start o = x
              end
  | None => exists out, iter_level k l so args = (out, None) /\ in_order s m out
  end.
Proof.
  assert (H0 : forall l s m, items_in_order s m l -> exists out, iter_level k l None args = (out, None) /\ in_order s m out).
  { induction l0 as [|[[v a] b] t IH]; intros s m H; cbn [iter_level].
    - exists []. split; [reflexivity|]. inversion H; subst. now constructor.
    - apply items_cons_inv in H as (H5 & H6 & H7). destruct (IH _ _ H7) as (out & E & I). rewrite E. eexists. split; [reflexivity|]. now constructor. }
  intros so s m H L. destruct so as [x|]; [|now apply H0]. destruct l as [|[[v a] b] t]; [reflexivity|]. cbn [iter_level].
  apply items_cons_inv in H as (H5 & H6 & H7). specialize (L x eq_refl). destruct (H0 t _ _ H7) as (out & E & I). rewrite E. eexists. split; [reflexivity|].
  split; [|eauto]. constructor; cbn; try lia. exact I.
Qed.

(* a level as it is kept: nothing, or its items *)
Definition level_items (l : list item) : list item := match l with [(RNone, _, _)] => [] | _ => l end.

Lemma iter_levels_order lv : forall k x s e args out o args', x <= s -> x < e -> Forall (fun l => l <> []) lv ->
  items_in_order s e (flat_map (fun l => level_items (arranged l)) lv) ->
  iter_levels k lv (Some x) args = (out, o, args') ->
  exists y, o = Some y /\ y < e /\ in_order x y out /\ match out with [] => y = x | f :: _ => or_start f = x end.
Proof.
  induction lv as [|l lv IH]; intros k x s e args out o args' L Lx N I H; cbn [iter_levels] in H.
  { injection H as <- <- _. exists x. cbn in I. apply items_le in I. split; [reflexivity|]. split; [lia|]. split; [constructor; lia|reflexivity]. }
  apply Forall_cons_iff in N as [N1 N]. fold (arranged l) in H. cbn [flat_map] in I. cbv beta in I.
  assert (NA : arranged l <> []).
  { intros Z. pose proof (Permutation_length (arranged_perm l)) as P. rewrite Z in P. destruct l; [contradiction|discriminate]. }
  apply items_app_inv in I as (m & I1 & I2).
  destruct (arranged l) as [|[[v a] b] [|y t]] eqn:Ea; [contradiction| |].
  - (* one item, or none *)
    cbn [removelast iter_level last item_start] in H.
    destruct (iter_levels (S k) lv (Some x) (set_arg args k (fst (fst (v, a, b))))) as [[out2 o2] args2] eqn:E2. injection H as <- <- _. cbn [app].
    refine (IH _ _ m _ _ _ _ _ _ Lx N I2 E2). apply items_le in I1. lia.
  - assert (R : forall i j k, level_items (i :: j :: k) = i :: j :: k) by (intros [[[| |] ?] ?] ? ?; reflexivity).
    rewrite R in I1. assert (Nr : removelast (arranged l) <> []) by (rewrite Ea; destruct t; discriminate).
    rewrite <- Ea in I1, H. set (w := arranged l) in *. clearbody w. clear R.
    assert (Nw : w <> []) by (rewrite Ea; discriminate). pose proof (last_split w NO_ITEM Nw) as Sp. rewrite Sp in I1.
    apply items_app_inv in I1 as (p & I1 & I3). pose proof (iter_level_order k (removelast w) args (Some x) s p I1) as Q. 
    assert (Q' : exists out, iter_level k (removelast w) (Some x) args = (out, None) /\ in_order x p out /\ exists o t, out = o :: t /\ or_start o = x).
    { destruct (removelast w); [contradiction|]. apply Q. intros z Hz. injection Hz as <-. exact L. }
    destruct Q' as (out1 & E1 & O1 & f & t1 & -> & Ef). rewrite E1 in H.
    destruct (last w NO_ITEM) as [[lv' la] lb] eqn:El. apply items_cons_inv in I3 as (H4 & H5 & H6).
    match goal with H : items_in_order lb m [] |- _ => inversion H end. cbn [item_start fst snd] in H.
    destruct (iter_levels (S k) lv (Some la) (set_arg args k lv')) as [[out2 o2] args2] eqn:E2. injection H as <- <- _.
    pose proof (items_le _ _ _ I2) as Lm. destruct (IH _ la m e _ _ _ _ ltac:(lia) ltac:(lia) N I2 E2) as (z & -> & Z1 & Z2 & Z3).
    exists z. split; [reflexivity|]. split; [exact Z1|]. split; [|exact Ef].
    change (f :: t1 ++ out2) with ((f :: t1) ++ out2); apply order_app with la; [|exact Z2]. clear -O1 H4 Z2. 
    assert (G : forall s m l, in_order s m l -> forall m', m <= m' -> in_order s m' l).
    { induction 1; intros m' Hm; constructor; auto; lia. }
    now apply G with p.
Qed.

(** ** From well placed items to ordered levels *)

Lemma forall_pairs_in {A} (R : A -> A -> Prop) l : ForallOrdPairs R l -> (forall x y, R x y -> R y x) ->
  forall l1 x l2, l = l1 ++ x :: l2 -> Forall (R x) (l1 ++ l2).
Proof.
  intros H S. induction H as [|a l F H IH]; intros [|b l1] x l2 E; try discriminate; cbn in E; injection E as -> E.
  - subst. exact F.
  - cbn [app]. constructor; [|auto]. subst. rewrite Forall_forall in F. apply S, F. apply in_app_iff. right. now left.
Qed.
Lemma apart_sym x y : apart x y -> apart y x.
Proof. unfold apart. tauto. Qed.

Definition placed_pairs (l : list addition) : Prop := forall l1 x y l2, l = l1 ++ x :: y :: l2 -> follows x y ->
    ad_end x <= ad_start y /\ Forall (fun z => ~ (ad_end x <= ad_start z /\ ad_end z <= ad_start y)) (l1 ++ l2).
Lemma placed_tail x l : placed_pairs (x :: l) -> placed_pairs l.
Proof.
  intros H l1 a b l2 E F. destruct (H (x :: l1) a b l2) as [H1 H2]; [now rewrite E|exact F|]. split; [exact H1|].
  cbn [app] in H2. now apply Forall_cons_iff in H2 as [_ H2].
Qed.

Definition proper (x : addition) : Prop := ad_start x < ad_end x.

(* an item that stands apart from everything, and not inside a pair *)
Definition outside (z : addition) (l : list addition) : Prop :=
  Forall (apart z) l /\ forall l1 x y l2, l = l1 ++ x :: y :: l2 -> follows x y -> ~ (ad_end x <= ad_start z /\ ad_end z <= ad_start y).
Lemma outside_tail z x l : outside z (x :: l) -> outside z l.
Proof.
  intros [H1 H2]. apply Forall_cons_iff in H1 as [_ H1]. split; [exact H1|].
  intros l1 a b l2 E F. apply (H2 (x :: l1) a b l2); [now rewrite E|exact F].
Qed.

Lemma outside_grouped l out : grouped l out -> Forall proper l -> placed_pairs l -> forall z, proper z -> outside z l -> Forall (apart z) out.
Proof.
  induction 1 as [|x l out _ G IH|x y a b l out F Ex Ey G IH]; intros P Q z Pz O; [constructor| |].
  - apply Forall_cons_iff in P as [P1 P]. constructor; [destruct O as [O _]; now apply Forall_cons_iff in O as [O _]|].
    apply IH; auto; [eapply placed_tail; eauto|eapply outside_tail; eauto].
  - apply Forall_cons_iff in P as [P1 P]. apply Forall_cons_iff in P as [P2 P]. constructor.
    + destruct (Q [] x y l eq_refl F) as [Q1 _]. destruct O as [O1 O2]. specialize (O2 [] x y l eq_refl F).
      apply Forall_cons_iff in O1 as [A1 O1]. apply Forall_cons_iff in O1 as [A2 _].
      unfold apart, merged, proper in *. cbn [ad_type ad_start ad_end]. destruct F as [T _]. rewrite <- T in A2. lia.
    + apply IH; auto; [do 2 eapply placed_tail; eauto|do 2 eapply outside_tail; eauto].
Qed.

Lemma grouped_from l out : grouped l out -> Forall proper l -> placed_pairs l -> forall w, In w out ->
  proper w /\ exists z, In z l /\ ad_start z = ad_start w /\ ad_end z <= ad_end w /\ exists z', In z' l /\ ad_end z' = ad_end w /\ ad_start w <= ad_start z'.
Proof.
  induction 1 as [|x l out _ G IH|x y a b l out F Ex Ey G IH]; intros P Q w Hw; [destruct Hw| |].
  - apply Forall_cons_iff in P as [P1 P]. destruct Hw as [<-|Hw].
    + split; [exact P1|]. exists x. split; [now left|]. split; [reflexivity|]. split; [lia|]. exists x. split; [now left|]. split; [reflexivity|lia].
    + destruct (IH P (placed_tail _ _ Q) w Hw) as (W & z & Z1 & Z2 & Z3 & z' & Z4 & Z5). split; [exact W|].
      exists z. split; [now right|]. split; [exact Z2|]. split; [exact Z3|]. exists z'. split; [now right|exact Z5].
  - apply Forall_cons_iff in P as [P1 P]. apply Forall_cons_iff in P as [P2 P]. destruct (Q [] x y l eq_refl F) as [Q1 _]. destruct Hw as [<-|Hw].
    + unfold proper, merged in *. cbn [ad_start ad_end]. split; [lia|]. exists x. split; [now left|]. split; [reflexivity|]. split; [lia|].
      exists y. split; [right; now left|]. split; [reflexivity|lia].
    + destruct (IH P (placed_tail _ _ (placed_tail _ _ Q)) w Hw) as (W & z & Z1 & Z2 & Z3 & z' & Z4 & Z5). split; [exact W|].
      exists z. split; [right; now right|]. split; [exact Z2|]. split; [exact Z3|]. exists z'. split; [right; now right|exact Z5].
Qed.

Lemma outside_head x l : ForallOrdPairs apart (x :: l) -> placed_pairs (x :: l) -> outside x l.
Proof.
  intros A Q. split; [now inversion A|]. intros l1 a b l2 E F. destruct (Q (x :: l1) a b l2) as [_ H]; [now rewrite E|exact F|].
  cbn [app] in H. now apply Forall_cons_iff in H as [H _].
Qed.

Lemma grouped_apart l out : grouped l out -> Forall proper l -> ForallOrdPairs apart l -> placed_pairs l -> ForallOrdPairs apart out.
Proof.
  induction 1 as [|x l out _ G IH|x y a b l out F Ex Ey G IH]; intros P A Q; [constructor| |].
  - pose proof (outside_head _ _ A Q) as O. apply Forall_cons_iff in P as [P1 P].
    constructor; [eapply outside_grouped; eauto; eapply placed_tail; eauto|]. inversion A; subst. apply IH; auto. eapply placed_tail; eauto.
  - pose proof (outside_head _ _ A Q) as O. apply outside_tail in O. pose proof (placed_tail _ _ Q) as Q1.
    assert (A1 : ForallOrdPairs apart (y :: l)) by (inversion A; auto). pose proof (outside_head _ _ A1 Q1) as O1.
    apply Forall_cons_iff in P as [P1 P]. apply Forall_cons_iff in P as [P2 P].
    pose proof (placed_tail _ _ Q1) as Q2. assert (A2 : ForallOrdPairs apart l) by (inversion A1; auto).
    constructor; [|now apply IH].
    pose proof (outside_grouped _ _ G P Q2 x P1 O) as B1. pose proof (outside_grouped _ _ G P Q2 y P2 O1) as B2.
    rewrite Forall_forall in *. intros w Hw. specialize (B1 w Hw). specialize (B2 w Hw).
    destruct (Q [] x y l eq_refl F) as [Q3 Q4]. cbn [app] in Q4. rewrite Forall_forall in Q4.
    destruct (grouped_from _ _ G ltac:(now apply Forall_forall) Q2 w Hw) as (W & z & Z1 & Z2 & Z3 & z' & Z4 & Z5 & Z6).
    assert (NB : ~ (ad_end x <= ad_start w /\ ad_end w <= ad_start y)).
    { intros [N1 N2]. apply (Q4 z Z1). lia. }
    unfold apart, merged, proper in *. cbn [ad_type ad_start ad_end]. destruct F as [T _]. rewrite <- T in B2. lia.
Qed.

(* items of increasing position, larger units first *)
Lemma filter_pairs {A} (R : A -> A -> Prop) f l : ForallOrdPairs R l -> ForallOrdPairs R (filter f l).
Proof.
  induction 1 as [|x l F H IH]; cbn [filter]; [constructor|]. destruct (f x); [|exact IH]. constructor; [|exact IH].
  apply Forall_forall. intros y Hy. apply filter_In in Hy. rewrite Forall_forall in F. now apply F.
Qed.
Lemma map_pairs {A B} (R : B -> B -> Prop) (f : A -> B) l : ForallOrdPairs (fun x y => R (f x) (f y)) l -> ForallOrdPairs R (map f l).
Proof. induction 1 as [|x l F H IH]; cbn [map]; [constructor|]. constructor; [now apply Forall_map|exact IH]. Qed.
Lemma pairs_impl {A} (R S : A -> A -> Prop) l : (forall x y, R x y -> S x y) -> ForallOrdPairs R l -> ForallOrdPairs S l.
Proof. intros I. induction 1 as [|x l F H IH]; constructor; [|exact IH]. revert F. apply Forall_impl. auto. Qed.
Lemma pairs_perm {A} (R : A -> A -> Prop) l m : (forall x y, R x y -> R y x) -> Permutation l m -> ForallOrdPairs R l -> ForallOrdPairs R m.
Proof.
  intros S P. induction P as [|x l m P IH|x y l|l m n P1 IH1 P2 IH2]; intros H; auto.
  - inversion H; subst. constructor; [eapply Permutation_Forall; eauto|auto].
  - inversion H as [|? ? F H']; subst. inversion H' as [|? ? F' H'']; subst. apply Forall_cons_iff in F as [F1 F2].
    constructor; [constructor; auto|]. now constructor.
Qed.

Definition item_end (x : item) : Z := snd x.
Definition item_apart (x y : item) : Prop := item_end x <= item_start y \/ item_end y <= item_start x.

Lemma sorted_items_order l : StronglySorted starts_le l -> ForallOrdPairs item_apart l ->
  forall s e, s <= e -> Forall (fun x => s <= item_start x /\ item_start x < item_end x /\ item_end x <= e) l -> items_in_order s e l.
Proof.
  induction 1 as [|[[v a] b] l S IH F]; intros A s e L B; [now constructor|].
  inversion A as [|? ? A1 A2]; subst. apply Forall_cons_iff in B as [B1 B]. cbn [item_start item_end fst snd] in B1.
  constructor; try lia. apply IH; [exact A2|lia|]. rewrite Forall_forall in *. intros z Hz. specialize (A1 z Hz). specialize (F z Hz). specialize (B z Hz).
  unfold item_apart, starts_le in *. cbn [item_start item_end fst snd] in *. lia.
Qed.

Lemma items_app l1 l2 : forall s m e, items_in_order s m l1 -> items_in_order m e l2 -> items_in_order s e (l1 ++ l2).
Proof.
  intros s m e H. revert l2. induction H; intros l2 H2; cbn [app]; [eapply items_weaken; eauto|constructor; auto].
Qed.
Lemma items_bound s e l : items_in_order s e l -> forall e', e <= e' -> items_in_order s e' l.
Proof. induction 1; intros e' L; constructor; auto; lia. Qed.

Lemma level_items_held k out : Forall real out -> Permutation (level_items (arranged (held k out))) (map to_item (at_level k out)).
Proof.
  intros R. unfold held. destruct (at_level k out) as [|x l] eqn:E; [reflexivity|]. cbn [map].
  assert (N : ad_data x <> RNone).
  { assert (H : In x (at_level k out)) by (rewrite E; now left). unfold at_level in H. apply filter_In in H as [H _]. rewrite Forall_forall in R. now apply R. }
  assert (Q : level_items (arranged (to_item x :: map to_item l)) = arranged (to_item x :: map to_item l)).
  { destruct l as [|y l]; cbn [map arranged].
    - unfold level_items, to_item. now destruct (ad_data x).
    - pose proof (sort_items_perm (to_item x :: to_item y :: map to_item l)) as P. apply Permutation_length in P.
      destruct (sort_items _) as [|p [|q t]]; try discriminate. destruct p as [[[| |] ?] ?]; reflexivity. }
  rewrite Q. apply arranged_perm.
Qed.
Lemma level_items_sorted k out : Forall real out -> StronglySorted starts_le (level_items (arranged (held k out))).
Proof.
  intros R. pose proof (arranged_sorted (held k out)) as S. unfold level_items. destruct (arranged (held k out)) as [|[[[| |] a] b] [|y t]]; auto. constructor.
Qed.

(* where the items of the levels up to [k] end *)
Definition upto (k : nat) (out : list addition) (s : Z) : Z :=
  fold_right Z.max s (map ad_end (filter (fun x => (level_of (ad_type x) <=? k)%nat) out)).
Lemma fold_max_le s l : s <= fold_right Z.max s l.
Proof. induction l; cbn; lia. Qed.
Lemma fold_max_in s l x : In x l -> x <= fold_right Z.max s l.
Proof. induction l as [|y l IH]; intros H; [destruct H|]. cbn. destruct H as [->|H]; [lia|]. specialize (IH H). lia. Qed.
Lemma fold_max_bound s l e : s <= e -> Forall (fun x => x <= e) l -> fold_right Z.max s l <= e.
Proof. induction 2; cbn; lia. Qed.

Lemma levels_in_order out s e : Forall real out -> ForallOrdPairs apart out -> s <= e ->
  Forall (fun x => s <= ad_start x /\ ad_start x < ad_end x /\ ad_end x <= e) out ->
  items_in_order s e (flat_map (fun l => level_items (arranged l)) (held_levels out)).
Proof.
  intros R A Lse B.
  assert (Pair : forall x y, In x out -> In y out -> (level_of (ad_type x) < level_of (ad_type y))%nat -> ad_end x <= ad_start y).
  { intros x y Hx Hy L. apply in_split in Hx as (l1 & l2 & E). pose proof (forall_pairs_in _ _ A apart_sym l1 x l2 E) as F.
    assert (Hy' : In y (l1 ++ l2)).
    { rewrite E in Hy. apply in_app_iff in Hy as [Hy|[Hy|Hy]]; [apply in_app_iff; now left| |apply in_app_iff; now right]. subst. lia. }
    rewrite Forall_forall in F. specialize (F y Hy'). unfold apart in F. lia. }
  assert (One : forall k, items_in_order (upto (k - 1) out s) (upto k out s) (level_items (arranged (held k out))) \/ (k < 1)%nat).
  { intros k. destruct k as [|k]; [right; lia|left]. replace (S k - 1)%nat with k by lia.
    apply sorted_items_order.
    - now apply level_items_sorted.
    - apply (pairs_perm item_apart (map to_item (at_level (S k) out))); [unfold item_apart; tauto|symmetry; now apply level_items_held|].
      apply map_pairs. apply pairs_impl with apart; [|now apply filter_pairs].
      intros x y H. unfold apart, item_apart, to_item in *. cbn. lia.
    - unfold upto. clear. induction out as [|x out IH]; cbn [filter map fold_right]; [lia|].
      destruct (Nat.leb_spec (level_of (ad_type x)) k), (Nat.leb_spec (level_of (ad_type x)) (S k)); cbn [map fold_right]; lia.
    - apply (Permutation_Forall (Permutation_sym (level_items_held (S k) out R))). apply Forall_map. apply Forall_forall. intros x Hx.
      unfold at_level in Hx. apply filter_In in Hx as [Hx Lx]. apply Nat.eqb_eq in Lx. rewrite Forall_forall in B. specialize (B x Hx).
      unfold to_item, item_start, item_end. cbn [fst snd]. split; [|split; [lia|]].
      + apply fold_max_bound; [lia|]. apply Forall_map. apply Forall_forall. intros y Hy. apply filter_In in Hy as [Hy Ly]. apply Nat.leb_le in Ly.
        apply Pair; auto; lia.
      + apply fold_max_in. apply in_map. apply filter_In. split; [exact Hx|]. apply Nat.leb_le. lia. }
  assert (U0 : s <= upto 0 out s) by apply fold_max_le.
  assert (U4 : upto 4 out s <= e).
  { apply fold_max_bound; [exact Lse|]. apply Forall_map. apply Forall_forall. intros y Hy. apply filter_In in Hy as [Hy _].
    rewrite Forall_forall in B. specialize (B y Hy). lia. }
  unfold held_levels. cbn [flat_map]. rewrite app_nil_r.
  apply items_app with (upto 1 out s).
  { destruct (One 1%nat) as [O|O]; [|lia]. eapply items_weaken; [exact O|exact U0]. }
  apply items_app with (upto 2 out s); [destruct (One 2%nat) as [O|O]; [exact O|lia]|].
  apply items_app with (upto 3 out s); [destruct (One 3%nat) as [O|O]; [exact O|lia]|].
  eapply items_bound; [destruct (One 4%nat) as [O|O]; [exact O|lia]|exact U4].
Qed.

Theorem collector_spans act l c s e : Forall real l -> add_all (new_collector act) l = Ok c -> s < e -> well_placed s e l ->
  in_order s e (collector_iter c (Some s) e) /\
  (forall d, or_start (hd d (collector_iter c (Some s) e)) = s) /\
  (forall d, or_end (last (collector_iter c (Some s) e) d) = e).
Proof.
  intros R A L (W1 & W2 & W3). destruct (collector_yields act l c (Some s) e R A) as (out & refs & o & args & G & I & E). rewrite E.
  assert (P : Forall proper l) by (eapply Forall_impl; [|exact W1]; unfold proper; tauto).
  assert (B : Forall (fun x => s <= ad_start x /\ ad_start x < ad_end x /\ ad_end x <= e) out).
  { apply Forall_forall. intros w Hw. destruct (grouped_from _ _ G P W3 w Hw) as (Pw & z & Z1 & Z2 & _ & z' & Z4 & Z5 & _).
    rewrite Forall_forall in W1. pose proof (W1 z Z1). pose proof (W1 z' Z4). unfold proper in Pw. lia. }
  pose proof (levels_in_order out s e (grouped_real _ _ G R) (grouped_apart _ _ G P W2 W3) ltac:(lia) B) as O.
  destruct (iter_levels_order _ 0 s s e _ _ _ _ ltac:(lia) L (held_levels_nonempty out) O I) as (y & Ey & Y1 & Y2 & Y3). injection Ey as ->.
  split; [|split].
  - apply order_app with y; [exact Y2|]. constructor; cbn; try lia. constructor. lia.
  - intros d. destruct refs as [|f t]; cbn; [exact Y3|exact Y3].
  - intros d. now rewrite last_last.
Qed.
