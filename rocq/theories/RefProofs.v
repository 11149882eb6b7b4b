From Coq Require Import ZifyBool ZifyNat ZifyN.
From Verif Require Import PyBase PyBaseFacts NumModel NumSpec IdModel IdSpec IdProofs RefModel RefSpec.
Local Open Scope Z_scope.

Lemma rpart_eqb_eq a b : rpart_eqb a b = true <-> a = b.
Proof.
  destruct a, b; cbn [rpart_eqb]; split; intros H; try discriminate; try reflexivity.
  - apply str_eqb_eq in H. now subst.
  - inversion H. apply str_eqb_refl.
  - apply andb_prop in H as [H1 H2]. apply str_eqb_eq in H1, H2. now subst.
  - inversion H. now rewrite !str_eqb_refl.
Qed.
Lemma rpart_eqb_refl a : rpart_eqb a a = true.
Proof. now apply rpart_eqb_eq. Qed.
Lemma rpart_eq_dec (a b : rpart) : {a = b} + {a <> b}.
Proof.
  destruct (rpart_eqb a b) eqn:E; [left|right].
  - now apply rpart_eqb_eq.
  - intros ->. rewrite rpart_eqb_refl in E. discriminate.
Qed.

Lemma components_inj a b : components a = components b -> a = b.
Proof.
  destruct a as [a1 a2 a3 a4 a5], b as [b1 b2 b3 b4 b5]. unfold components. cbn. intros H.
  inversion H as [[H1 H2 H3 H4 H5]]. f_equal. destruct a1, b1; cbn in H1; congruence.
Qed.
Lemma ref_eqb_eq a b : ref_eqb a b = true <-> a = b.
Proof.
  split; [|intros ->; unfold ref_eqb, components; cbn; now rewrite !rpart_eqb_refl].
  intros H. apply components_inj. unfold ref_eqb, components in *. cbn in H.
  repeat (apply andb_prop in H as [?H H]).
  repeat match goal with E : rpart_eqb _ _ = true |- _ => apply rpart_eqb_eq in E; rewrite E; clear E end.
  reflexivity.
Qed.
Lemma ref_eq_dec (a b : reference) : {a = b} + {a <> b}.
Proof.
  destruct (ref_eqb a b) eqn:E; [left; now apply ref_eqb_eq|right]. intros ->.
  assert (ref_eqb b b = true) by now apply ref_eqb_eq. congruence.
Qed.
Lemma nth_components_inj a b : (forall i, (i < 5)%nat -> nth_part a i = nth_part b i) -> a = b.
Proof.
  intros H. apply components_inj.
  pose proof (H 0%nat ltac:(lia)); pose proof (H 1%nat ltac:(lia)); pose proof (H 2%nat ltac:(lia));
  pose proof (H 3%nat ltac:(lia)); pose proof (H 4%nat ltac:(lia)).
  unfold nth_part, components in *. cbn in *. congruence.
Qed.
Lemma nth_part_out a i : (5 <= i)%nat -> nth_part a i = RNone.
Proof. intros H. unfold nth_part. apply nth_overflow. exact H. Qed.

(** * relative_to *)
Fixpoint rel (xs ys : list rpart) : list rpart :=
  match xs, ys with
  | x :: xs', y :: ys' => if is_none x then y :: rel xs' ys' else x :: xs'
  | _, _ => []
  end.

Lemma relative_components a b : components (relative_to a b) = rel (components a) (components b).
Proof.
  destruct a as [a1 a2 a3 a4 a5], b as [b1 b2 b3 b4 b5]. unfold relative_to, components. cbn.
  destruct a1 as [a1|]; cbn.
  - destruct a2, a3, a4, a5; reflexivity.
  - destruct a2; cbn; [|destruct a3, a4, a5; reflexivity ..].
    destruct a3; cbn; [|destruct a4, a5; reflexivity ..].
    destruct a4; cbn; [|destruct a5; reflexivity ..].
    destruct a5; reflexivity.
Qed.
Lemma rel_assoc xs : forall ys zs, List.length xs = List.length ys -> List.length ys = List.length zs ->
  rel (rel xs ys) zs = rel xs (rel ys zs).
Proof.
  induction xs as [|x xs IH]; intros [|y ys] [|z zs] H1 H2; try discriminate; [reflexivity|].
  cbn in H1, H2. destruct x; cbn [rel is_none]; [|destruct y; reflexivity ..].
  destruct y; cbn [rel is_none]; [|reflexivity ..]. f_equal. apply IH; lia.
Qed.
Lemma relative_to_assoc a b c : relative_to (relative_to a b) c = relative_to a (relative_to b c).
Proof. apply components_inj. rewrite !relative_components. now apply rel_assoc. Qed.
Lemma relative_to_empty_l a : relative_to EMPTY_REF a = a.
Proof. now destruct a. Qed.
Lemma relative_to_empty_r a : relative_to a EMPTY_REF = a.
Proof.
  apply components_inj. rewrite relative_components. destruct a as [a1 a2 a3 a4 a5]. unfold components. cbn.
  destruct a1; cbn; [reflexivity|]. destruct a2; cbn; try reflexivity.
  destruct a3; cbn; try reflexivity. destruct a4; cbn; try reflexivity. destruct a5; reflexivity.
Qed.
Lemma rel_levels xs : forall ys, List.length xs = List.length ys ->
  (Forall (eq RNone) xs -> rel xs ys = ys) /\
  (forall i, (i < List.length xs)%nat -> nth i xs RNone <> RNone -> (forall j, (j < i)%nat -> nth j xs RNone = RNone) ->
   forall j, nth j (rel xs ys) RNone = if (j <? i)%nat then nth j ys RNone else nth j xs RNone).
Proof.
  induction xs as [|x xs IH]; intros [|y ys] L; try discriminate; cbn in L.
  - split; [reflexivity|]. intros i Hi. cbn in Hi. lia.
  - destruct (IH ys ltac:(lia)) as [IH1 IH2]. split.
    + intros H. inversion H as [|? ? E HF]; subst. cbn [rel is_none]. f_equal. now apply IH1.
    + intros i Hi Hx Hj j. destruct i as [|i].
      * cbn in Hx. destruct x; try congruence; cbn [rel is_none]; now destruct (Nat.ltb_spec j 0); try lia.
      * specialize (Hj 0%nat ltac:(lia)) as E0. cbn in E0. subst x. cbn [rel is_none].
        destruct j as [|j]; [reflexivity|]. cbn [nth].
        rewrite (IH2 i); [reflexivity|cbn in Hi; lia|exact Hx|].
        intros k Hk. exact (Hj (S k) ltac:(lia)).
Qed.
Lemma relative_to_levels a b i : first_level a i -> forall j,
  nth_part (relative_to a b) j = if (j <? i)%nat then nth_part b j else nth_part a j.
Proof.
  intros (Hi & Hx & Hj) j. unfold nth_part. rewrite relative_components.
  apply (rel_levels (components a) (components b) eq_refl); assumption.
Qed.
Lemma first_level_exists a : a = EMPTY_REF \/ exists i, first_level a i.
Proof.
  destruct a as [a1 a2 a3 a4 a5].
  destruct a1 as [a1|]; [right; exists 0%nat; repeat split; [lia|discriminate|lia]|].
  destruct (rpart_eq_dec a2 RNone) as [->|E2].
  2:{ right; exists 1%nat. repeat split; [lia|exact E2|]. intros [|j] Hj; [reflexivity|lia]. }
  destruct (rpart_eq_dec a3 RNone) as [->|E3].
  2:{ right; exists 2%nat. repeat split; [lia|exact E3|]. intros [|[|j]] Hj; [reflexivity ..|lia]. }
  destruct (rpart_eq_dec a4 RNone) as [->|E4].
  2:{ right; exists 3%nat. repeat split; [lia|exact E4|]. intros [|[|[|j]]] Hj; [reflexivity ..|lia]. }
  destruct (rpart_eq_dec a5 RNone) as [->|E5]; [now left|].
  right; exists 4%nat. repeat split; [lia|exact E5|]. intros [|[|[|[|j]]]] Hj; [reflexivity ..|lia].
Qed.
Lemma relative_to_twice a b : relative_to (relative_to a b) b = relative_to a b.
Proof.
  rewrite relative_to_assoc. f_equal. apply components_inj. rewrite relative_components.
  destruct b as [b1 b2 b3 b4 b5]. unfold components. cbn. destruct b1; cbn; [reflexivity|].
  destruct b2; cbn; try reflexivity. destruct b3; cbn; try reflexivity. destruct b4; cbn; try reflexivity.
  destruct b5; reflexivity.
Qed.

(** * Order *)
Definition part_single (p : rpart) : Prop := match p with RRange _ _ => False | _ => True end.
Definition part_readable (p : rpart) : Prop :=
  match p with RNone => True | RId s => decimal_id s | RRange a b => decimal_id a /\ decimal_id b end.

Definition lex (xs ys : list rpart) : Prop :=
  exists i, (i < List.length xs)%nat /\ part_before (nth i xs RNone) (nth i ys RNone) /\
            forall j, (j < i)%nat -> nth j xs RNone = nth j ys RNone.

Lemma lex_cons x xs y ys : lex (x :: xs) (y :: ys) <-> part_before x y \/ (x = y /\ lex xs ys).
Proof.
  split.
  - intros (i & Hi & Hb & Hj). destruct i as [|i]; [now left|right].
    split; [exact (Hj 0%nat ltac:(lia))|]. exists i. split; [cbn in Hi; lia|]. split; [exact Hb|].
    intros j Hlt. exact (Hj (S j) ltac:(lia)).
  - intros [Hb|[-> (i & Hi & Hb & Hj)]].
    + exists 0%nat. split; [cbn; lia|]. split; [exact Hb|]. intros j Hlt. lia.
    + exists (S i). split; [cbn; lia|]. split; [exact Hb|].
      intros [|j] Hlt; [reflexivity|]. apply Hj. lia.
Qed.
Lemma lex_nil ys : ~ lex [] ys.
Proof. intros (i & Hi & _). cbn in Hi. lia. Qed.

Lemma part_before_ids a b : decimal_id a -> decimal_id b ->
  part_before (RId a) (RId b) <-> identifier_less a b = Ok true.
Proof.
  intros Ha Hb. split.
  - intros H. inversion H as [|? ? pa pb Ra Rb Hlt]; subst. apply (identifier_less_true a b pa pb); auto.
  - intros H. destruct (reads_exists a) as [pa Ra], (reads_exists b) as [pb Rb].
    econstructor; [exact Ra|exact Rb|]. apply (identifier_less_true a b pa pb); auto.
Qed.
Lemma part_before_irrefl x : part_readable x -> ~ part_before x x.
Proof.
  intros Hr H. inversion H as [|a b pa pb Ra Rb Hlt]; subst; cbn in Hr.
  apply (identifier_less_irrefl a). apply (identifier_less_true a a pa pb); auto.
Qed.
Lemma part_before_trans x y z : part_readable x -> part_readable y -> part_readable z ->
  part_before x y -> part_before y z -> part_before x z.
Proof.
  intros Hx Hy Hz H1 H2. inversion H1 as [s|a b pa pb Ra Rb Hlt]; subst.
  - inversion H2; subst; constructor.
  - inversion H2 as [|? c pb' pc Rb' Rc Hlt']; subst. cbn in Hx, Hy, Hz.
    apply part_before_ids; auto. eapply identifier_less_trans.
    + apply part_before_ids; [exact Hx|exact Hy|exact H1].
    + apply part_before_ids; [exact Hy|exact Hz|exact H2].
Qed.

Lemma lex_trans xs : forall ys zs, Forall part_readable xs -> Forall part_readable ys -> Forall part_readable zs ->
  List.length xs = List.length ys -> List.length ys = List.length zs ->
  lex xs ys -> lex ys zs -> lex xs zs.
Proof.
  induction xs as [|x xs IH]; intros [|y ys] [|z zs] Fx Fy Fz L1 L2 H1 H2; try discriminate.
  - now apply lex_nil in H1.
  - inversion Fx; inversion Fy; inversion Fz; subst. cbn in L1, L2.
    rewrite lex_cons in *.
    destruct H1 as [H1|[-> H1]], H2 as [H2|[-> H2]]; auto.
    + left. eapply (part_before_trans x y z); eauto.
    + right. split; [reflexivity|]. apply (IH ys zs); auto; lia.
Qed.
Lemma lex_irrefl xs : Forall part_readable xs -> ~ lex xs xs.
Proof.
  induction xs as [|x xs IH]; intros F; [apply lex_nil|]. inversion F; subst. rewrite lex_cons.
  intros [H|[_ H]]; [now apply part_before_irrefl in H|now apply IH].
Qed.

Lemma lt_gt_swap xs : forall ys, List.length xs = List.length ys ->
  Forall part_single xs -> Forall part_single ys -> lt_gt_loop false xs ys = lt_gt_loop true ys xs.
Proof.
  induction xs as [|x xs IH]; intros [|y ys] L Fx Fy; try discriminate; [reflexivity|].
  inversion Fx; inversion Fy; subst. cbn in L. destruct x, y; cbn [lt_gt_loop is_tuple orb]; try contradiction;
    cbn [rpart_eqb negb]; try reflexivity.
  - apply IH; auto; lia.
  - rewrite (str_eqb_sym s s0). destruct (str_eqb s0 s); cbn [negb]; [|reflexivity]. apply IH; auto; lia.
Qed.
Lemma lt_loop_spec xs : forall ys, List.length xs = List.length ys ->
  Forall part_single xs -> Forall part_single ys -> Forall part_readable xs -> Forall part_readable ys ->
  exists r, lt_gt_loop true xs ys = Ok r /\ (r = true <-> lex xs ys).
Proof.
  induction xs as [|x xs IH]; intros [|y ys] L Fx Fy Rx Ry; try discriminate.
  - exists false. split; [reflexivity|]. split; [discriminate|]. intros H. now apply lex_nil in H.
  - inversion Fx as [|? ? Sx Fx']; inversion Fy as [|? ? Sy Fy']; inversion Rx as [|? ? Dx Rx'];
      inversion Ry as [|? ? Dy Ry']; subst. cbn in L.
    destruct (IH ys ltac:(lia) Fx' Fy' Rx' Ry') as (r & E & Hr).
    destruct x as [|a|xa xb], y as [|b|ya yb]; try contradiction; cbn [lt_gt_loop is_tuple orb rpart_eqb negb].
    + exists r. split; [exact E|]. rewrite Hr, lex_cons. split; [auto|].
      intros [H|[_ H]]; [inversion H|exact H].
    + exists true. split; [reflexivity|]. rewrite lex_cons. split; [|auto]. intros _. left. constructor.
    + exists false. split; [reflexivity|]. rewrite lex_cons. split; [discriminate|].
      intros [H|[H _]]; [inversion H|discriminate].
    + destruct (str_eqb a b) eqn:Eab; cbn [negb].
      * apply str_eqb_eq in Eab. subst b. exists r. split; [exact E|]. rewrite Hr, lex_cons. split; [auto|].
        intros [H|[_ H]]; [|exact H]. now apply part_before_irrefl in H.
      * apply str_eqb_neq in Eab. cbn in Dx, Dy. destruct (identifier_less_total a b Dx Dy) as [q Eq].
        exists q. split; [exact Eq|]. rewrite lex_cons, part_before_ids, Eq by assumption. split.
        -- intros ->. now left.
        -- intros [H|[H _]]; congruence.
Qed.

Lemma ref_before_lex a b : ref_before a b <-> lex (components a) (components b).
Proof. reflexivity. Qed.

Lemma ref_lt_spec a b : no_ranges a -> no_ranges b -> readable a -> readable b ->
  exists r, ref_lt a b = Ok r /\ (r = true <-> ref_before a b).
Proof. intros. unfold ref_lt, ref_lt_gt. apply lt_loop_spec; auto. Qed.
Lemma ref_gt_spec a b : no_ranges a -> no_ranges b -> ref_gt a b = ref_lt b a.
Proof. intros. unfold ref_lt, ref_gt, ref_lt_gt. apply lt_gt_swap; auto. Qed.
Lemma ref_le_spec a b : no_ranges a -> no_ranges b -> readable a -> readable b ->
  exists r, ref_le a b = Ok r /\ (r = true <-> a = b \/ ref_before a b).
Proof.
  intros H1 H2 H3 H4. unfold ref_le. destruct (ref_eqb a b) eqn:E.
  - exists true. apply ref_eqb_eq in E. split; [reflexivity|]. split; auto.
  - destruct (ref_lt_spec a b H1 H2 H3 H4) as (r & Er & Hr). exists r. split; [exact Er|].
    rewrite Hr. split; [auto|]. intros [Eab|H]; [|exact H].
    apply ref_eqb_eq in Eab. congruence.
Qed.
Lemma ref_ge_spec a b : no_ranges a -> no_ranges b -> ref_ge a b = ref_le b a.
Proof.
  intros H1 H2. unfold ref_ge, ref_le. pose proof (ref_gt_spec a b H1 H2) as E. unfold ref_gt, ref_lt in E.
  rewrite E. replace (ref_eqb b a) with (ref_eqb a b); [reflexivity|].
  destruct (ref_eqb a b) eqn:Eab, (ref_eqb b a) eqn:Eba; try reflexivity; exfalso.
  - apply ref_eqb_eq in Eab. symmetry in Eab. apply ref_eqb_eq in Eab. congruence.
  - apply ref_eqb_eq in Eba. symmetry in Eba. apply ref_eqb_eq in Eba. congruence.
Qed.
Lemma lt_gt_range lt xs : forall ys i, List.length xs = List.length ys ->
  (is_tuple (nth i xs RNone) || is_tuple (nth i ys RNone) = true) ->
  (forall j, (j < i)%nat -> nth j xs RNone = nth j ys RNone) -> lt_gt_loop lt xs ys = Err ValueError.
Proof.
  induction xs as [|x xs IH]; intros [|y ys] i L H Hj; try discriminate.
  - destruct i; discriminate.
  - cbn [lt_gt_loop]. cbn in L. destruct (is_tuple x || is_tuple y) eqn:E; [reflexivity|].
    destruct i as [|i]; [cbn in H; rewrite H in E; discriminate|].
    pose proof (Hj 0%nat ltac:(lia)) as E0. cbn in E0. subst y. rewrite rpart_eqb_refl. cbn [negb].
    apply (IH ys i); [lia|exact H|]. intros j Hlt. exact (Hj (S j) ltac:(lia)).
Qed.

(** * Canonical identifiers *)
Lemma canonical_same a b : canonical_id a -> canonical_id b ->
  identifier_less a b = Ok false -> identifier_less b a = Ok false -> a = b.
Proof.
  intros [Da Ca] [Db Cb] H1 H2. destruct (reads_exists a) as [pa Ra], (reads_exists b) as [pb Rb].
  assert (pa = pb) as -> by (apply (identifier_incomparable a b pa pb); auto).
  rewrite <- (Ca pb Ra). now apply Cb.
Qed.
Lemma canonical_total a b : canonical_id a -> canonical_id b ->
  identifier_less a b = Ok true \/ a = b \/ identifier_less b a = Ok true.
Proof.
  intros Ha Hb. destruct (identifier_less_total a b (proj1 Ha) (proj1 Hb)) as [[] E]; [now left|right].
  destruct (identifier_less_total b a (proj1 Hb) (proj1 Ha)) as [[] E']; [now right|left].
  now apply canonical_same.
Qed.
Definition part_canonical (p : rpart) : Prop :=
  match p with RNone => True | RId s => canonical_id s | RRange a b => canonical_id a /\ canonical_id b end.
Lemma canonical_readable r : canonical r -> readable r.
Proof.
  intros H. unfold readable. eapply Forall_impl; [|exact H]. intros [|s|a b]; cbn; auto.
  - intros [? _]. assumption.
  - intros [[? _] [? _]]. auto.
Qed.
Lemma part_total x y : part_single x -> part_single y -> part_canonical x -> part_canonical y ->
  part_before x y \/ x = y \/ part_before y x.
Proof.
  destruct x as [|a|xa xb], y as [|b|ya yb]; cbn; try contradiction; intros _ _ Ha Hb.
  - auto.
  - left. constructor.
  - right. right. constructor.
  - rewrite !part_before_ids by (apply Ha || apply Hb).
    destruct (canonical_total a b Ha Hb) as [H|[->|H]]; auto.
Qed.
Lemma lex_total xs : forall ys, List.length xs = List.length ys ->
  Forall part_single xs -> Forall part_single ys -> Forall part_canonical xs -> Forall part_canonical ys ->
  lex xs ys \/ xs = ys \/ lex ys xs.
Proof.
  induction xs as [|x xs IH]; intros [|y ys] L Fx Fy Cx Cy; try discriminate; [auto|].
  inversion Fx; inversion Fy; inversion Cx; inversion Cy; subst. cbn in L. rewrite !lex_cons.
  destruct (part_total x y) as [H|[->|H]]; auto.
  destruct (IH ys ltac:(lia)) as [H|[->|H]]; auto.
Qed.
Lemma ref_total a b : no_ranges a -> no_ranges b -> canonical a -> canonical b ->
  ref_before a b \/ a = b \/ ref_before b a.
Proof.
  intros H1 H2 H3 H4. rewrite !ref_before_lex.
  destruct (lex_total (components a) (components b)) as [H|[H|H]]; auto.
  apply components_inj in H. auto.
Qed.

(** * Parents *)
Lemma is_parent_refl xs : is_parent_loop xs xs = false.
Proof. induction xs as [|x xs IH]; [reflexivity|]. cbn. now rewrite rpart_eqb_refl. Qed.

Lemma is_parent_loop_spec xs : forall ys, List.length xs = List.length ys ->
  (forall i, nth i xs RNone = RNone -> nth (S i) xs RNone = RNone) ->
  is_parent_loop xs ys = true <->
  xs <> ys /\ exists n, forall i, nth i xs RNone = if (i <? n)%nat then nth i ys RNone else RNone.
Proof.
  induction xs as [|x xs IH]; intros [|y ys] L G; try discriminate.
  - cbn. split; [discriminate|]. intros [H _]. congruence.
  - cbn in L. assert (G' : forall i, nth i xs RNone = RNone -> nth (S i) xs RNone = RNone)
      by (intros i; exact (G (S i))).
    specialize (IH ys ltac:(lia) G'). cbn [is_parent_loop].
    destruct (rpart_eqb x y) eqn:E; cbn [negb].
    + apply rpart_eqb_eq in E. subst y. rewrite IH. split.
      * intros [N (n & Hn)]. split; [congruence|]. exists (S n). intros [|i]; [reflexivity|].
        cbn [nth]. rewrite (Hn i). reflexivity.
      * intros [N (n & Hn)]. split; [congruence|]. destruct n as [|n].
        -- exists 0%nat. intros i. specialize (Hn (S i)). exact Hn.
        -- exists n. intros i. specialize (Hn (S i)). exact Hn.
    + assert (x <> y) by (intros ->; rewrite rpart_eqb_refl in E; discriminate). split.
      * intros Hx. split; [congruence|]. exists 0%nat. destruct x; try discriminate. intros i.
        cbn. induction i as [|i IHi]; [reflexivity|]. apply G, IHi.
      * intros [_ (n & Hn)]. specialize (Hn 0%nat). destruct n; [|change (x = y) in Hn; congruence].
        change (x = RNone) in Hn. now subst x.
Qed.
Lemma is_parent_spec a b : gap_free a -> is_parent_of a b = true <-> ancestor a b.
Proof.
  intros G. unfold is_parent_of, ancestor, truncated, nth_part. rewrite is_parent_loop_spec; [|reflexivity|exact G].
  split; intros [N H]; split; auto; intros E; apply N; [now rewrite E|now apply components_inj].
Qed.
Lemma truncated_trans n m a b c : truncated n b a -> truncated m c b -> truncated (Nat.min n m) c a.
Proof.
  intros H1 H2 i. rewrite H1. destruct (Nat.ltb_spec i n), (Nat.ltb_spec i (Nat.min n m)); try lia; try reflexivity.
  - rewrite H2. destruct (Nat.ltb_spec i m); [reflexivity|lia].
  - rewrite H2. destruct (Nat.ltb_spec i m); [lia|reflexivity].
Qed.
Lemma truncated_le n b a : truncated n b a -> forall i, nth_part a i = RNone \/ nth_part a i = nth_part b i.
Proof. intros H i. rewrite H. destruct (i <? n)%nat; auto. Qed.
Lemma ancestor_irrefl a : ~ ancestor a a.
Proof. now intros [H _]. Qed.
Lemma ancestor_trans a b c : ancestor a b -> ancestor b c -> ancestor a c.
Proof.
  intros [N1 (n & H1)] [N2 (m & H2)]. split.
  - intros ->. apply N1. apply nth_components_inj. intros i _.
    destruct (truncated_le _ _ _ H1 i) as [E1|E1], (truncated_le _ _ _ H2 i) as [E2|E2]; congruence.
  - exists (Nat.min n m). eapply truncated_trans; eauto.
Qed.

(* parent() removes the deepest component *)
Lemma parent_truncated r : exists n, truncated n r (parent r).
Proof.
  destruct r as [a p1 p2 p3 p4]. unfold parent, truncated, nth_part, components.
  destruct p4; cbn [is_none negb]; [|exists 4%nat; intros [|[|[|[|[|[|i]]]]]]; reflexivity ..].
  destruct p3; cbn [is_none negb]; [|exists 3%nat; intros [|[|[|[|[|[|i]]]]]]; reflexivity ..].
  destruct p2; cbn [is_none negb]; [|exists 2%nat; intros [|[|[|[|[|[|i]]]]]]; reflexivity ..].
  destruct p1; cbn [is_none negb]; [|exists 1%nat; intros [|[|[|[|[|[|i]]]]]]; reflexivity ..].
  exists 0%nat; intros [|[|[|[|[|[|i]]]]]]; reflexivity.
Qed.
Lemma parent_spec r i : deepest r i -> truncated i r (parent r).
Proof.
  intros (Hi & Hx & Hj). destruct r as [a p1 p2 p3 p4]. unfold truncated, nth_part, components in *.
  destruct i as [|[|[|[|[|i]]]]]; [..|lia];
    try (pose proof (Hj 4%nat ltac:(lia)) as E4; cbn in E4; subst p4);
    try (pose proof (Hj 3%nat ltac:(lia)) as E3; cbn in E3; subst p3);
    try (pose proof (Hj 2%nat ltac:(lia)) as E2; cbn in E2; subst p2);
    try (pose proof (Hj 1%nat ltac:(lia)) as E1; cbn in E1; subst p1); cbn in Hx.
  - intros [|[|[|[|[|[|i]]]]]]; reflexivity.
  - destruct p1; try congruence; intros [|[|[|[|[|[|i]]]]]]; reflexivity.
  - destruct p2; try congruence; intros [|[|[|[|[|[|i]]]]]]; reflexivity.
  - destruct p3; try congruence; intros [|[|[|[|[|[|i]]]]]]; reflexivity.
  - destruct p4; try congruence; intros [|[|[|[|[|[|i]]]]]]; reflexivity.
Qed.
Lemma deepest_exists r : r = EMPTY_REF \/ exists i, deepest r i.
Proof.
  destruct r as [a p1 p2 p3 p4]. unfold deepest, nth_part, components.
  destruct (rpart_eq_dec p4 RNone) as [->|E4].
  2:{ right. exists 4%nat. split; [lia|]. split; [exact E4|]. intros j Hj. apply nth_overflow. cbn. lia. }
  destruct (rpart_eq_dec p3 RNone) as [->|E3].
  2:{ right. exists 3%nat. split; [lia|]. split; [exact E3|]. intros j Hj. do 5 (destruct j as [|j]; [solve [lia | reflexivity]|]). apply nth_overflow. cbn. lia. }
  destruct (rpart_eq_dec p2 RNone) as [->|E2].
  2:{ right. exists 2%nat. split; [lia|]. split; [exact E2|]. intros j Hj. do 5 (destruct j as [|j]; [solve [lia | reflexivity]|]). apply nth_overflow. cbn. lia. }
  destruct (rpart_eq_dec p1 RNone) as [->|E1].
  2:{ right. exists 1%nat. split; [lia|]. split; [exact E1|]. intros j Hj. do 5 (destruct j as [|j]; [solve [lia | reflexivity]|]). apply nth_overflow. cbn. lia. }
  destruct a as [a|]; [|now left].
  right. exists 0%nat. split; [lia|]. split; [discriminate|]. intros j Hj. do 5 (destruct j as [|j]; [solve [lia | reflexivity]|]). apply nth_overflow. cbn. lia.
Qed.
Lemma truncated_self b a n : truncated n b a -> (forall j, (n <= j)%nat -> nth_part b j = RNone) -> a = b.
Proof.
  intros H Hj. apply nth_components_inj. intros i _. rewrite H. destruct (Nat.ltb_spec i n); [reflexivity|].
  symmetry. now apply Hj.
Qed.
(* removing deepest components = repeated parent *)
Lemma truncated_iter n : forall b a, truncated n b a -> exists k, a = Nat.iter k parent b.
Proof.
  intros b.
  assert (M : forall m, (forall j, (m <= j)%nat -> nth_part b j = RNone) ->
              forall n a, truncated n b a -> exists k, a = Nat.iter k parent b).
  { intros m. revert b. induction m as [|m IH]; intros b Hm n0 a Ha.
    - exists 0%nat. cbn. apply (truncated_self b a n0 Ha). intros j _. apply Hm. lia.
    - destruct (le_lt_dec (S m) n0) as [Hn|Hn].
      { exists 0%nat. cbn. apply (truncated_self b a n0 Ha). intros j Hj. apply Hm. lia. }
      destruct (rpart_eq_dec (nth_part b m) RNone) as [E|E].
      { apply (IH b) with (n := n0); [|exact Ha]. intros j Hj.
        destruct (Nat.eq_dec j m) as [->|]; [exact E|]. apply Hm. lia. }
      assert (m < 5)%nat.
      { destruct (le_lt_dec 5 m); [|assumption]. exfalso. apply E. now apply nth_part_out. }
      assert (D : deepest b m) by (split; [assumption|]; split; [exact E|]; intros j Hj; apply Hm; lia).
      pose proof (parent_spec b m D) as P.
      destruct (IH (parent b)) with (n := n0) (a := a) as [k Hk].
      + intros j Hj. rewrite P. destruct (Nat.ltb_spec j m); [lia|reflexivity].
      + intros i. rewrite Ha, P. destruct (Nat.ltb_spec i n0), (Nat.ltb_spec i m); try reflexivity; lia.
      + exists (S k). rewrite Hk. clear. induction k as [|k IHk]; [reflexivity|].
        change (parent (Nat.iter k parent (parent b)) = parent (parent (Nat.iter k parent b))). now rewrite IHk. }
  apply (M 5%nat). intros j Hj. now apply nth_part_out.
Qed.
Lemma iter_truncated k : forall b, exists n, truncated n b (Nat.iter k parent b).
Proof.
  induction k as [|k IH]; intros b.
  - exists 5%nat. cbn. intros i. destruct (Nat.ltb_spec i 5); [reflexivity|]. now apply nth_part_out.
  - destruct (IH b) as [n Hn]. destruct (parent_truncated (Nat.iter k parent b)) as [m Hm].
    exists (Nat.min m n). change (Nat.iter (S k) parent b) with (parent (Nat.iter k parent b)). eapply truncated_trans; [exact Hm|exact Hn].
Qed.
Lemma parent_reaches_empty r : Nat.iter 5 parent r = EMPTY_REF.
Proof.
  assert (S1 : forall m b, (forall j, (S m <= j)%nat -> nth_part b j = RNone) -> forall j, (m <= j)%nat -> nth_part (parent b) j = RNone).
  { intros m b Hm j Hj. destruct (rpart_eq_dec (nth_part b m) RNone) as [E|E].
    - destruct (parent_truncated b) as [n Hn]. destruct (truncated_le _ _ _ Hn j) as [H|H]; [exact H|]. rewrite H.
      destruct (Nat.eq_dec j m) as [->|]; [exact E|]. apply Hm. lia.
    - assert (m < 5)%nat.
      { destruct (le_lt_dec 5 m); [|assumption]. exfalso. apply E. now apply nth_part_out. }
      rewrite (parent_spec b m).
      + destruct (Nat.ltb_spec j m); [lia|reflexivity].
      + split; [assumption|]. split; [exact E|]. intros i Hi. apply Hm. lia. }
  apply nth_components_inj. intros i Hi. replace (nth_part EMPTY_REF i) with RNone
    by (do 6 (destruct i; [reflexivity|]); lia).
  change (Nat.iter 5 parent r) with (parent (parent (parent (parent (parent r))))).
  apply (S1 0%nat); [|lia]. apply (S1 1%nat). apply (S1 2%nat). apply (S1 3%nat). apply (S1 4%nat).
  intros j Hj. now apply nth_part_out.
Qed.

(* in the order, an ancestor comes first *)
Lemma ancestor_before a b : gap_free a -> no_ranges b -> ancestor a b -> ref_before a b.
Proof.
  intros G NR [N (n & H)].
  assert (W : exists i, (i < 5)%nat /\ nth_part a i <> nth_part b i /\ forall j, (j < i)%nat -> nth_part a j = nth_part b j).
  { assert (Q : forall k, (k <= 5)%nat -> (exists i, (i < k)%nat /\ nth_part a i <> nth_part b i /\ forall j, (j < i)%nat -> nth_part a j = nth_part b j)
                      \/ forall j, (j < k)%nat -> nth_part a j = nth_part b j).
    { induction k as [|k IH]; intros Hk; [right; intros; lia|].
      destruct (IH ltac:(lia)) as [(i & Hi & R)|R]; [left; exists i; split; [lia|exact R]|].
      destruct (rpart_eq_dec (nth_part a k) (nth_part b k)) as [E|E].
      - right. intros j Hj. destruct (Nat.eq_dec j k) as [->|]; [exact E|]. apply R. lia.
      - left. exists k. split; [lia|]. split; [exact E|exact R]. }
    destruct (Q 5%nat ltac:(lia)) as [W|W]; [exact W|]. exfalso. apply N. now apply nth_components_inj. }
  destruct W as (i & Hi & E & Hj). exists i. split; [exact Hi|]. split; [|exact Hj].
  destruct (truncated_le _ _ _ H i) as [E1|E1]; [|congruence]. rewrite E1 in *.
  unfold no_ranges in NR. rewrite Forall_forall in NR.
  assert (IN : In (nth_part b i) (components b)) by (apply nth_In; exact Hi).
  specialize (NR _ IN). destruct (nth_part b i) as [|s|x y]; [congruence|constructor|contradiction].
Qed.
