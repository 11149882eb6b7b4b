From Coq Require Import Lia Permutation Sorted.
From Coq Require Import ZifyBool ZifyNat ZifyN.
From Verif Require Import PyBase PyBaseFacts NumModel IdModel RefModel RefSpec RefProofs TreeModel SemModel GramModel GramSpec GramProofs GramProofs2 GramProofs3.
Local Open Scope Z_scope.

(** * Spans of the references of a collector, whether or not they overlap *)

(* items from [a] to [b], larger units first, identifiers of a level in order *)
Definition ranked (x y : addition) : Prop :=
  (level_of (ad_type x) <= level_of (ad_type y))%nat /\
  ((level_of (ad_type x) < level_of (ad_type y))%nat -> ad_end x <= ad_start y) /\
  (forall i j, ad_data x = RId i -> ad_data y = RId j -> ad_end x <= ad_start y).
Definition inside (a b : Z) (x : addition) : Prop := a <= ad_start x /\ ad_start x < ad_end x /\ ad_end x <= b.
Definition laid_out (a b : Z) (l : list addition) : Prop := Forall (inside a b) l /\ ForallOrdPairs ranked l.

Definition later (x y : addition) : Prop := (level_of (ad_type x) < level_of (ad_type y))%nat -> ad_end x <= ad_start y.
Lemma grouped_later l out : grouped l out -> ForallOrdPairs ranked l ->
  ForallOrdPairs later out /\ ForallOrdPairs (fun x y => (level_of (ad_type x) <= level_of (ad_type y))%nat) out /\
  forall z, Forall (ranked z) l -> Forall (fun y => later z y /\ (level_of (ad_type z) <= level_of (ad_type y))%nat) out.
Proof.
  induction 1 as [|x l out N G IH|x y p q l out F Dx Dy G IH]; intros P.
  - repeat split; constructor.
  - inversion P as [|? ? P1 P2]; subst. destruct (IH P2) as (I1 & I2 & I3). specialize (I3 x P1) as I4.
    split; [constructor; [|exact I1]; revert I4; apply Forall_impl; tauto|].
    split; [constructor; [|exact I2]; revert I4; apply Forall_impl; tauto|].
    intros z Z. apply Forall_cons_iff in Z as [Z1 Z2]. constructor; [|now apply I3]. destruct Z1 as (Z1 & Z3 & _). split; [exact Z3|exact Z1].
  - inversion P as [|? ? P1 P2]; subst. inversion P2 as [|? ? P3 P4]; subst. destruct (IH P4) as (I1 & I2 & I3). pose proof (I3 y P3) as I4.
    assert (T : ad_type x = ad_type y) by apply F.
    assert (M : Forall (fun w => later (merged x y p q) w /\ (level_of (ad_type (merged x y p q)) <= level_of (ad_type w))%nat) out).
    { revert I4. apply Forall_impl. intros w [W1 W2]. unfold later, merged in *. cbn [ad_type ad_end] in *. rewrite T. auto. }
    split; [constructor; [|exact I1]; revert M; apply Forall_impl; tauto|].
    split; [constructor; [|exact I2]; revert M; apply Forall_impl; tauto|].
    intros z Z. apply Forall_cons_iff in Z as [Z1 Z2]. apply Forall_cons_iff in Z2 as [Z2 Z3]. constructor; [|now apply I3].
    destruct Z1 as (Z1 & Z4 & _). split; [exact Z4|exact Z1].
Qed.
Lemma grouped_ends (P Q : Z -> Prop) a b l out : grouped l out -> Forall (inside a b) l -> ForallOrdPairs ranked l ->
  Forall (fun x => P (ad_start x) /\ Q (ad_end x)) l -> Forall (fun x => inside a b x /\ P (ad_start x) /\ Q (ad_end x)) out.
Proof.
  induction 1 as [|x l out N G IH|x y p q l out F Dx Dy G IH]; intros A B C; [constructor| |].
  - apply Forall_cons_iff in A as [A1 A]. apply Forall_cons_iff in C as [C1 C]. inversion B; subst. constructor; auto.
  - apply Forall_cons_iff in A as [A1 A]. apply Forall_cons_iff in A as [A2 A]. apply Forall_cons_iff in C as [C1 C]. apply Forall_cons_iff in C as [C2 C].
    inversion B as [|? ? B1 B2]; subst. inversion B2; subst. constructor; [|auto]. apply Forall_cons_iff in B1 as [(_ & _ & B1) _]. specialize (B1 _ _ Dx Dy).
    unfold inside, merged in *. cbn [ad_start ad_end]. intuition lia.
Qed.

(* levels of items, each after the levels before it *)
Definition is_real (it : item) : Prop := fst (fst it) <> RNone.
Definition span_start (it : item) : Z := snd (fst it).
Definition level_fine (P Q : Z -> Prop) (x b : Z) (l : list item) : Prop :=
  l = [NO_ITEM] \/ (l <> [] /\ Forall (fun it => P (span_start it) /\ Q (snd it) /\ x <= span_start it /\ span_start it < snd it /\ snd it <= b) l).
Definition levels_apart (l m : list item) : Prop :=
  l = [NO_ITEM] \/ m = [NO_ITEM] \/ forall i j, In i l -> In j m -> snd i <= span_start j.
Definition good_span (P Q : Z -> Prop) (b : Z) (o : outgoing_reference) : Prop :=
  P (or_start o) /\ Q (or_end o) /\ or_start o < or_end o /\ or_end o <= b.

Lemma iter_level_good (P Q : Z -> Prop) b k l args : forall so x out o, (forall y, so = Some y -> y = x) -> P x ->
  Forall (fun it => P (span_start it) /\ Q (snd it) /\ x <= span_start it /\ span_start it < snd it /\ snd it <= b) l ->
  iter_level k l so args = (out, o) ->
  Forall (good_span P Q b) out /\ (o = so \/ o = None).
Proof.
  induction l as [|[[v s] e] l IH]; intros so x out o S Px F H; cbn [iter_level] in H; [injection H as <- <-; auto|].
  apply Forall_cons_iff in F as [F1 F]. cbn [span_start fst snd] in F1.
  destruct (iter_level k l None args) as [rest o'] eqn:E. injection H as <- <-. apply (IH None x) in E; [|discriminate|exact Px|exact F].
  destruct E as [E1 E2]. split; [|destruct E2 as [->| ->]; auto]. constructor; [|exact E1]. unfold good_span. cbn [or_start or_end].
  destruct so as [y|]; [rewrite (S y eq_refl)|]; intuition lia.
Qed.
Lemma iter_levels_good (P Q : Z -> Prop) b lv : forall k x args out o args', P x -> x < b -> Forall (level_fine P Q x b) lv -> ForallOrdPairs levels_apart lv ->
  iter_levels k lv (Some x) args = (out, o, args') ->
  Forall (good_span P Q b) out /\ exists y, o = Some y /\ P y /\ y < b.
Proof.
  induction lv as [|l lv IH]; intros k x args out o args' Px xb F A H; cbn [iter_levels] in H.
  { injection H as <- <- _. split; [constructor|eauto]. }
  apply Forall_cons_iff in F as [F1 F]. inversion A as [|? ? A1 A2]; subst. fold (arranged l) in H.
  destruct (iter_level k (removelast (arranged l)) (Some x) args) as [out1 o1] eqn:E1.
  set (o2 := match o1 with None => _ | Some _ => o1 end) in H.
  destruct (iter_levels (S k) lv o2 _) as [[out2 o3] args2] eqn:E2. injection H as <- <- _.
  assert (D : (l = [NO_ITEM] /\ out1 = [] /\ o2 = Some x) \/
              (Forall (good_span P Q b) out1 /\ exists y, o2 = Some y /\ P y /\ y < b /\ x <= y /\ exists it, In it l /\ span_start it < snd it /\ y < snd it)).
  { destruct F1 as [->|[N F1]].
    - left. cbn in E1. injection E1 as <- <-. auto.
    - right. pose proof (arranged_perm l) as Pm. assert (FA : Forall (fun it => P (span_start it) /\ Q (snd it) /\ x <= span_start it /\ span_start it < snd it /\ snd it <= b) (arranged l)).
      { eapply Permutation_Forall; [symmetry; exact Pm|exact F1]. }
      assert (NA : arranged l <> []) by (intros Z; rewrite Z in Pm; apply Permutation_nil in Pm; contradiction).
      pose proof (last_split (arranged l) NO_ITEM NA) as Sp. set (la := last (arranged l) NO_ITEM) in *.
      assert (FR : Forall (fun it => P (span_start it) /\ Q (snd it) /\ x <= span_start it /\ span_start it < snd it /\ snd it <= b) (removelast (arranged l)) /\
                   (P (span_start la) /\ Q (snd la) /\ x <= span_start la /\ span_start la < snd la /\ snd la <= b)).
      { rewrite Sp in FA. apply Forall_app in FA as [FA1 FA2]. apply Forall_cons_iff in FA2 as [FA2 _]. auto. }
      destruct FR as [FR FL]. eapply iter_level_good in E1 as [E1 E3]; [|intros y [= <-]; reflexivity|exact Px|exact FR].
      split; [exact E1|]. assert (Il : In la l) by (eapply Permutation_in; [exact Pm|rewrite Sp; apply in_app_iff; cbn; auto]).
      subst o2. destruct E3 as [->| ->].
      + exists x. repeat split; [exact Px|exact xb|lia|]. exists la. split; [exact Il|]. lia.
      + exists (span_start la). split; [reflexivity|]. split; [apply FL|]. split; [lia|]. split; [lia|]. exists la. split; [exact Il|lia]. }
  destruct D as [(-> & -> & D)|(D1 & y & D & Py & yb & xy & D2)]; rewrite D in E2.
  - apply IH in E2; auto.
  - apply IH in E2 as [E2 E3]; auto.
    + split; [|exact E3]. apply Forall_app. auto.
    + apply Forall_forall. intros m Hm. rewrite Forall_forall in F, A1. specialize (F m Hm). specialize (A1 m Hm).
      destruct F as [->|[N F]]; [now left|right]. split; [exact N|]. apply Forall_forall. intros it Hit. rewrite Forall_forall in F. specialize (F it Hit).
      destruct A1 as [->|[->|A1]].
      * destruct D2 as (i & [<-|[]] & D2 & _). cbn in D2. lia.
      * destruct Hit as [<-|[]]. cbn in F. lia.
      * destruct D2 as (i & Ii & _ & yi). specialize (A1 i it Ii Hit). intuition lia.
Qed.

Lemma ordered_filter {A} (R : A -> A -> Prop) f l : ForallOrdPairs R l -> ForallOrdPairs R (filter f l).
Proof.
  induction 1 as [|x l F P IH]; [constructor|]. cbn [filter]. destruct (f x); [|exact IH]. constructor; [|exact IH].
  apply Forall_forall. intros y Hy. apply filter_In in Hy as [Hy _]. rewrite Forall_forall in F. auto.
Qed.
Lemma ordered_pairs {A} (R : A -> A -> Prop) l x y : ForallOrdPairs R l -> In x l -> In y l -> x = y \/ R x y \/ R y x.
Proof.
  induction 1 as [|z l F P IH]; [intros []|]. rewrite Forall_forall in F. intros [->|X] [->|Y]; auto.
Qed.
Lemma held_cases k out : held k out = [NO_ITEM] \/ (held k out = map to_item (at_level k out) /\ at_level k out <> []).
Proof. unfold held. destruct (at_level k out) as [|x l]; [now left|right]. split; [reflexivity|discriminate]. Qed.
Lemma held_apart out i j : ForallOrdPairs later out -> ForallOrdPairs (fun x y => (level_of (ad_type x) <= level_of (ad_type y))%nat) out -> (i < j)%nat ->
  levels_apart (held i out) (held j out).
Proof.
  intros L V ij. destruct (held_cases i out) as [E|[-> _]]; [now left|]. right. destruct (held_cases j out) as [E|[-> _]]; [now left|]. right.
  intros p q Hp Hq. apply in_map_iff in Hp as (x & <- & Hx). apply in_map_iff in Hq as (y & <- & Hy).
  unfold at_level in *. apply filter_In in Hx as [Hx Ex]. apply filter_In in Hy as [Hy Ey].
  assert (VL : ForallOrdPairs (fun x y => (level_of (ad_type x) <= level_of (ad_type y))%nat /\ later x y) out).
  { clear -L V. induction L as [|x l F L IH]; [constructor|]. inversion V; subst. constructor; [|auto]. rewrite Forall_forall in *. auto. }
  destruct (ordered_pairs _ _ x y VL Hx Hy) as [->|[[V1 L1]|[V1 L1]]]; [lia| |lia]. apply L1. lia.
Qed.
Lemma held_fine P Q a b out k : Forall (fun x => inside a b x /\ P (ad_start x) /\ Q (ad_end x)) out -> level_fine P Q a b (held k out).
Proof.
  intros F. destruct (held_cases k out) as [E|[-> N]]; [now left|]. right. split; [intros E; apply map_eq_nil in E; contradiction|].
  apply Forall_map, Forall_forall. intros y Hy. unfold at_level in Hy. apply filter_In in Hy as [Hy _]. rewrite Forall_forall in F.
  destruct (F y Hy) as ((I1 & I2 & I3) & I4 & I5). cbn. auto.
Qed.
Theorem collector_good (P Q : Z -> Prop) act l c a b : Forall real l -> add_all (new_collector act) l = Ok c ->
  P a -> Q b -> a < b -> laid_out a b l -> Forall (fun x => P (ad_start x) /\ Q (ad_end x)) l ->
  Forall (good_span P Q b) (collector_iter c (Some a) b).
Proof.
  intros R A Pa Qb ab [I O] E. destruct (collector_yields act l c (Some a) b R A) as (out & refs & o & args & G & It & ->).
  destruct (grouped_later l out G O) as (L1 & L2 & _). pose proof (grouped_ends P Q a b l out G I O E) as F.
  apply (iter_levels_good P Q b) in It as [It (y & [= <-] & Py & yb)]; [|exact Pa|exact ab| |].
  - apply Forall_app. split; [exact It|]. constructor; [|constructor]. unfold good_span. cbn. auto with zarith.
  - unfold held_levels. repeat (apply Forall_cons; [now apply held_fine|]). apply Forall_nil.
  - unfold held_levels. repeat (apply FOP_cons; [repeat (apply Forall_cons; [apply held_apart; auto with arith|]); apply Forall_nil|]). apply FOP_nil.
Qed.
