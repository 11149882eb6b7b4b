From Coq Require Import ZifyBool ZifyNat ZifyN.
From Verif Require Import PyBase PyBaseFacts NumModel NumSpec IdModel IdSpec IdProofs RefModel RefSpec RefProofs.
Local Open Scope Z_scope.

(** * contains() *)
Definition idlt (a b : pystr) : Prop := identifier_less a b = Ok true.

Inductive plt : path -> path -> Prop :=
| plt_nil x q : plt [] (x :: q)
| plt_head x y p q : idlt x y -> plt (x :: p) (y :: q)
| plt_tail x p q : plt p q -> plt (x :: p) (x :: q).
Definition ple (p q : path) : Prop := p = q \/ plt p q.
Definition pre (p q : path) : Prop := exists r, q = p ++ r.

Lemma plt_nil_r p : ~ plt p [].
Proof. intros H. inversion H. Qed.
Lemma plt_cons x p y q : plt (x :: p) (y :: q) <-> idlt x y \/ (x = y /\ plt p q).
Proof.
  split.
  - intros H. inversion H; subst; auto.
  - intros [H|[-> H]]; [now apply plt_head|now apply plt_tail].
Qed.
Lemma ple_cons x p y q : ple (x :: p) (y :: q) <-> idlt x y \/ (x = y /\ ple p q).
Proof.
  unfold ple. rewrite plt_cons. split.
  - intros [E|[H|[-> H]]]; auto. inversion E. auto.
  - intros [H|[-> [->|H]]]; auto.
Qed.
Lemma pre_cons x p y q : pre (x :: p) (y :: q) <-> x = y /\ pre p q.
Proof.
  split.
  - intros [r E]. cbn in E. inversion E. split; [reflexivity|]. now exists r.
  - intros [-> [r ->]]. now exists r.
Qed.
Lemma plt_trans p : forall q r, plt p q -> plt q r -> plt p r.
Proof.
  induction p as [|x p IH]; intros [|y q] [|z r] H1 H2; try (now apply plt_nil_r in H1);
    try (now apply plt_nil_r in H2).
  - constructor.
  - rewrite plt_cons in *. destruct H1 as [H1|[-> H1]], H2 as [H2|[-> H2]]; auto.
    + left. unfold idlt in *. eapply identifier_less_trans; eauto.
    + right. split; [reflexivity|]. eauto.
Qed.
Lemma plt_irrefl p : ~ plt p p.
Proof.
  induction p as [|x p IH]; [apply plt_nil_r|]. rewrite plt_cons. intros [H|[_ H]]; [|now apply IH].
  now apply identifier_less_irrefl in H.
Qed.
Lemma ple_trans p q r : ple p q -> ple q r -> ple p r.
Proof. unfold ple. intros [->|H1] [->|H2]; auto. right. eapply plt_trans; eauto. Qed.
Lemma ple_lt_trans p q r : ple p q -> plt q r -> plt p r.
Proof. intros [->|H1] H2; auto. eapply plt_trans; eauto. Qed.
Lemma plt_total p : forall q, canonical_path p -> canonical_path q -> plt p q \/ p = q \/ plt q p.
Proof.
  induction p as [|x p IH]; intros [|y q] Hp Hq; auto.
  - left. constructor.
  - right. right. constructor.
  - inversion Hp; inversion Hq; subst. rewrite !plt_cons.
    destruct (canonical_total x y) as [H|[->|H]]; auto.
    destruct (IH q) as [H|[->|H]]; auto.
Qed.
Lemma pre_refl p : pre p p.
Proof. exists []. now rewrite app_nil_r. Qed.
Lemma pre_trans p q r : pre p q -> pre q r -> pre p r.
Proof. intros [a ->] [b ->]. exists (a ++ b). now rewrite app_assoc. Qed.
Lemma pre_ple p q : pre p q -> ple p q.
Proof.
  intros [r ->]. induction p as [|x p IH].
  - destruct r; [now left|right; constructor].
  - cbn. apply ple_cons. auto.
Qed.
Lemma pre_squeeze h k : forall p, pre h k -> ple h p -> ple p k -> pre h p.
Proof.
  intros p [r ->]. revert p. induction h as [|x h IH]; intros p H1 H2.
  - now exists p.
  - destruct p as [|y p].
    + destruct H1 as [H1|H1]; [discriminate|now apply plt_nil_r in H1].
    + cbn in H2. rewrite ple_cons in H1, H2. rewrite pre_cons.
      destruct H1 as [H1|[-> H1]], H2 as [H2|[E H2]].
      * exfalso. apply (identifier_less_asym _ _ H1 H2).
      * subst. now apply identifier_less_irrefl in H1.
      * now apply identifier_less_irrefl in H2.
      * split; [reflexivity|]. now apply IH.
Qed.
Lemma plt_extend h k : forall p, plt h k -> pre h p -> pre h k \/ plt p k.
Proof.
  intros p H. revert p. induction H as [x q|x y h q H|x h q H IH]; intros p [r ->].
  - left. now exists (x :: q).
  - right. cbn. now constructor.
  - destruct (IH (h ++ r)) as [[t E]|E]; [now exists r| |].
    + left. exists t. cbn. now rewrite E.
    + right. cbn. now constructor.
Qed.

(* the interval between two paths, closed downwards in the tree at the end *)
Definition inside (l h p : path) : Prop := ple l p /\ (ple p h \/ pre h p).

Lemma not_after_canonical a b : canonical_id a -> canonical_id b -> not_after a b <-> idlt a b \/ a = b.
Proof.
  intros Ha Hb. rewrite not_after_iff by (apply Ha || apply Hb). split.
  - intros H. destruct (canonical_total a b Ha Hb) as [E|[E|E]]; auto. congruence.
  - intros [H| ->].
    + destruct (identifier_less_total b a (proj1 Hb) (proj1 Ha)) as [[] E]; [|exact E].
      exfalso. apply (identifier_less_asym _ _ H E).
    + destruct (identifier_less_total b b (proj1 Hb) (proj1 Hb)) as [[] E]; [|exact E].
      now apply identifier_less_irrefl in E.
Qed.

Lemma within_inside ids lo hi : canonical_id lo -> canonical_id hi -> forall p, canonical_path p ->
  within ids lo hi p <-> inside (ids ++ [lo]) (ids ++ [hi]) p.
Proof.
  intros Hl Hh. unfold inside, within. induction ids as [|i ids IH]; intros [|x p] Hp; cbn [app].
  - split; [intros (y & b & E & _); discriminate|].
    intros [[E|E] _]; [discriminate|now apply plt_nil_r in E].
  - inversion Hp as [|? ? Hx Hp']; subst.
    assert (B : between lo x hi <-> (idlt lo x \/ lo = x) /\ (idlt x hi \/ x = hi)).
    { unfold between. now rewrite !not_after_canonical. }
    rewrite !ple_cons, pre_cons. split.
    + intros (y & b & E & H). injection E as <- <-. apply B in H as [H1 H2]. split.
      * destruct H1 as [H1|H1]; [now left|right]. split; [exact H1|]. destruct p; [now left|right; constructor].
      * destruct H2 as [H2|H2]; [left; now left|right]. split; [congruence|]. now exists p.
    + intros [H1 H2]. exists x, p. split; [reflexivity|]. apply B. split.
      * destruct H1 as [H1|[H1 _]]; auto.
      * destruct H2 as [[H2|[H2 _]]|[H2 _]]; auto.
  - split; [intros (y & b & E & _); discriminate|].
    intros [[E|E] _]; [discriminate|now apply plt_nil_r in E].
  - inversion Hp as [|? ? Hx Hp']; subst. specialize (IH p Hp'). rewrite !ple_cons, pre_cons. split.
    + intros (y & b & E & H). injection E as <- E.
      destruct (proj1 IH) as [I1 I2]; [now exists y, b|]. split; [right; auto|].
      destruct I2 as [I2|I2]; [left; right; auto|right; auto].
    + intros [H1 H2].
      assert (i = x /\ ple (ids ++ [lo]) p /\ (ple p (ids ++ [hi]) \/ pre (ids ++ [hi]) p)) as (-> & I1 & I2).
      { destruct H1 as [H1|[E1 H1]].
        - exfalso. destruct H2 as [[H2|[H2 _]]|[H2 _]].
          + apply (identifier_less_asym _ _ H1 H2).
          + subst. now apply identifier_less_irrefl in H1.
          + subst. now apply identifier_less_irrefl in H1.
        - split; [exact E1|]. split; [exact H1|]. destruct H2 as [[H2|[_ H2]]|[_ H2]]; auto.
          subst. now apply identifier_less_irrefl in H2. }
      destruct (proj2 IH) as (y & b & -> & B); [auto|]. now exists y, b.
Qed.

Lemma snoc_pre_snoc a x b y : pre (a ++ [x]) (b ++ [y]) -> a ++ [x] <> b ++ [y] ->
  exists r, r <> [] /\ b ++ [y] = a ++ [x] ++ r /\ pre (a ++ [x]) b.
Proof.
  intros [r E] N. destruct r as [|z r]; [exfalso; apply N; now rewrite app_nil_r in E|].
  exists (z :: r). split; [discriminate|]. split; [now rewrite app_assoc|].
  destruct (exists_last (l := z :: r) ltac:(discriminate)) as (r' & w & Er). rewrite Er in E.
  rewrite app_assoc in E. apply app_inj_tail in E as [E _]. now exists r'.
Qed.

(* the interval test by endpoints decides inclusion *)
Lemma inside_subset idsA loA hiA idsB loB hiB :
  canonical_path (idsA ++ [loA]) -> canonical_path (idsA ++ [hiA]) ->
  canonical_path (idsB ++ [loB]) -> canonical_path (idsB ++ [hiB]) ->
  (idlt loB hiB \/ loB = hiB) ->
  (ple (idsA ++ [loA]) (idsB ++ [loB]) /\ (ple (idsB ++ [hiB]) (idsA ++ [hiA]) \/ pre (idsA ++ [hiA]) (idsB ++ [hiB])))
  <-> forall p, canonical_path p -> inside (idsB ++ [loB]) (idsB ++ [hiB]) p ->
                inside (idsA ++ [loA]) (idsA ++ [hiA]) p.
Proof.
  intros CA1 CA2 CB1 CB2 V. split.
  - intros [H1 H2] p Cp [P1 P2]. split; [eapply ple_trans; eauto|].
    destruct (plt_total p (idsA ++ [hiA]) Cp CA2) as [T|[T|T]]; [left; now right|left; now left|].
    assert (HA : ple (idsA ++ [hiA]) p) by now right.
    destruct H2 as [H2|H2].
    + destruct P2 as [P2|P2].
      * left. eapply ple_trans; eauto.
      * destruct H2 as [H2|H2]; [right; now rewrite <- H2|].
        destruct (plt_extend _ _ p H2 P2) as [H3|H3]; [|left; now right].
        exfalso. destruct (snoc_pre_snoc _ _ _ _ H3) as (r & Nr & Er & [t Et]).
        { intros E. rewrite E in H2. now apply plt_irrefl in H2. }
        (* loA's path lies strictly below hiB's, so it cannot be before loB's *)
        rewrite Et in H1. rewrite <- !app_assoc in H1.
        assert (Q : forall ids, ple (ids ++ [hiB] ++ t ++ [loA]) (ids ++ [loB]) -> idlt hiB loB).
        { induction ids as [|i ids IH]; cbn [app]; rewrite ple_cons.
          - intros [Q|[_ [Q|Q]]]; [exact Q|destruct t; discriminate|now apply plt_nil_r in Q].
          - intros [Q|[_ Q]]; [now apply identifier_less_irrefl in Q|now apply IH]. }
        specialize (Q _ H1). destruct V as [V| ->]; [apply (identifier_less_asym _ _ V Q)|].
        now apply identifier_less_irrefl in Q.
    + destruct P2 as [P2|P2].
      * right. eapply pre_squeeze; eauto.
      * right. eapply pre_trans; eauto.
  - intros H.
    assert (VB : ple (idsB ++ [loB]) (idsB ++ [hiB])).
    { clear -V. induction idsB as [|i ids IH]; cbn [app]; rewrite ple_cons; [|auto].
      destruct V as [V| ->]; auto. right. split; [reflexivity|now left]. }
    destruct (H _ CB1) as [I1 _]; [split; [now left|now left]|].
    destruct (H _ CB2) as [_ I2]; [split; [exact VB|left; now left]|]. auto.
Qed.

(* components as padded paths *)
Definition padded (xs : list rpart) (p : path) : Prop :=
  exists tail, Forall (eq RNone) tail /\ xs = map RId p ++ tail.

Lemma padded_nil xs : padded xs [] <-> Forall (eq RNone) xs.
Proof. split; [intros (t & H & ->); exact H|intros H; now exists xs]. Qed.
Lemma padded_cons x xs y p : padded (x :: xs) (y :: p) <-> x = RId y /\ padded xs p.
Proof.
  split.
  - intros (t & H & E). cbn in E. inversion E. split; [reflexivity|]. now exists t.
  - intros [-> (t & H & ->)]. now exists t.
Qed.
Lemma padded_nil_cons y p : ~ padded [] (y :: p).
Proof. intros (t & _ & E). discriminate. Qed.
Lemma all_none_eq xs : forall ys, Forall (eq RNone) xs -> Forall (eq RNone) ys -> List.length xs = List.length ys -> xs = ys.
Proof.
  induction xs as [|x xs IH]; intros [|y ys] Fx Fy L; try discriminate; [reflexivity|].
  inversion Fx; inversion Fy; subst. f_equal. apply IH; auto.
Qed.
Lemma padded_facts p : forall xs q ys, padded xs p -> padded ys q -> List.length xs = List.length ys ->
  Forall decimal_id p -> Forall decimal_id q ->
  (lex xs ys <-> plt p q) /\ (xs = ys <-> p = q) /\
  (is_parent_loop xs ys = true <-> p <> q /\ pre p q).
Proof.
  induction p as [|x p IH]; intros xs q ys Px Py L Dp Dq.
  - apply padded_nil in Px. revert ys q Py L Dq. induction xs as [|x xs IHx]; intros [|y ys] q Py L Dq; try discriminate.
    + destruct q as [|z q]; [|now apply padded_nil_cons in Py].
      split; [|split].
      * split; intros H; [now apply lex_nil in H|now apply plt_nil_r in H].
      * tauto.
      * cbn. split; [discriminate|]. intros [N _]. congruence.
    + inversion Px as [|? ? Ex Px']; subst x. cbn in L. destruct q as [|z q].
      * apply padded_nil in Py. assert (E : RNone :: xs = y :: ys) by (apply all_none_eq; auto; cbn; lia).
        inversion E; subst. split; [|split].
        -- split; intros H; [|now apply plt_nil_r in H]. exfalso. apply (lex_irrefl (RNone :: ys)); [|exact H].
           eapply Forall_impl; [|exact Py]. intros a <-. exact I.
        -- tauto.
        -- rewrite is_parent_refl. split; [discriminate|]. intros [N _]. congruence.
      * apply padded_cons in Py as [-> Py]. rewrite lex_cons. split; [|split].
        -- split; intros _; [constructor|left; constructor].
        -- split; discriminate.
        -- cbn. split; [|reflexivity]. intros _. split; [discriminate|]. now exists (z :: q).
  - destruct xs as [|x' xs]; [now apply padded_nil_cons in Px|]. apply padded_cons in Px as [-> Px].
    destruct ys as [|y' ys]; [discriminate|]. cbn in L. inversion Dp as [|? ? Dx Dp']; subst.
    destruct q as [|y q].
    + apply padded_nil in Py. inversion Py as [|? ? E Py']; subst. rewrite lex_cons. split; [|split].
      * split; intros H; [|now apply plt_nil_r in H]. destruct H as [H|[H _]]; [inversion H|discriminate].
      * split; discriminate.
      * cbn. split; [discriminate|]. intros [_ [r E]]. discriminate.
    + apply padded_cons in Py as [-> Py]. inversion Dq as [|? ? Dy Dq']; subst.
      destruct (IH xs q ys Px Py ltac:(lia) Dp' Dq') as (I1 & I2 & I3).
      rewrite lex_cons, plt_cons, part_before_ids, pre_cons by assumption. split; [|split].
      * unfold idlt. rewrite I1. split; intros [H|[E H]]; auto; right; split; auto; congruence.
      * split; intros E; inversion E; subst; [f_equal; now apply I2|f_equal; now apply I2].
      * cbn [is_parent_loop rpart_eqb]. destruct (str_eqb x y) eqn:E; cbn [negb is_none].
        -- apply str_eqb_eq in E. subst y. rewrite I3. split.
           ++ intros [N P]. split; [congruence|auto].
           ++ intros [N [_ P]]. split; [congruence|auto].
        -- split; [discriminate|]. apply str_eqb_neq in E. intros [_ [H _]]. congruence.
Qed.

Lemma act_none_lex a b : r_act a = None -> r_act b = None ->
  (lex (components a) (components b) <-> lex (tl (components a)) (tl (components b))) /\
  (a = b <-> tl (components a) = tl (components b)) /\
  is_parent_of a b = is_parent_loop (tl (components a)) (tl (components b)).
Proof.
  intros Ha Hb. split; [|split].
  - unfold components. rewrite Ha, Hb. cbn [act_part tl]. rewrite lex_cons. split; [|auto].
    intros [H|[_ H]]; [inversion H|exact H].
  - split; [congruence|]. intros E. apply components_inj. unfold components in *. rewrite Ha, Hb. cbn in *. congruence.
  - unfold is_parent_of, components. now rewrite Ha, Hb.
Qed.
Lemma levels_facts a b : (r_act a = None <-> r_act b = None) ->
  (ref_before a b <-> lex (levels a) (levels b)) /\
  (a = b <-> levels a = levels b) /\
  is_parent_of a b = is_parent_loop (levels a) (levels b) /\
  List.length (levels a) = List.length (levels b).
Proof.
  intros H. rewrite ref_before_lex. unfold levels. destruct (r_act a) as [x|] eqn:Ea, (r_act b) as [y|] eqn:Eb.
  - split; [reflexivity|]. split; [split; [congruence|apply components_inj]|]. split; reflexivity.
  - destruct H as [_ H]. discriminate H. reflexivity.
  - destruct H as [H _]. discriminate H. reflexivity.
  - destruct (act_none_lex a b Ea Eb) as (H1 & H2 & H3). split; [exact H1|]. split; [exact H2|]. split; [exact H3|reflexivity].
Qed.

Lemma first_no_ranges r : no_ranges (first_in_range r).
Proof.
  destruct r as [a p1 p2 p3 p4]. unfold no_ranges, components. cbn.
  repeat constructor; [destruct a|destruct p1|destruct p2|destruct p3|destruct p4]; exact I.
Qed.
Lemma last_no_ranges r : no_ranges (last_in_range r).
Proof.
  destruct r as [a p1 p2 p3 p4]. unfold no_ranges, components. cbn.
  repeat constructor; [destruct a|destruct p1|destruct p2|destruct p3|destruct p4]; exact I.
Qed.
Lemma first_components r : components (first_in_range r) = map part_first (components r).
Proof. destruct r as [[a|] p1 p2 p3 p4]; reflexivity. Qed.
Lemma last_components r : components (last_in_range r) = map part_last (components r).
Proof. destruct r as [[a|] p1 p2 p3 p4]; reflexivity. Qed.
Lemma first_levels r : levels (first_in_range r) = map part_first (levels r).
Proof. destruct r as [[a|] p1 p2 p3 p4]; reflexivity. Qed.
Lemma last_levels r : levels (last_in_range r) = map part_last (levels r).
Proof. destruct r as [[a|] p1 p2 p3 p4]; reflexivity. Qed.
Lemma first_readable r : readable r -> readable (first_in_range r).
Proof.
  unfold readable. rewrite first_components. intros H. apply Forall_map. eapply Forall_impl; [|exact H].
  intros [|s|x y]; cbn; tauto.
Qed.
Lemma last_readable r : readable r -> readable (last_in_range r).
Proof.
  unfold readable. rewrite last_components. intros H. apply Forall_map. eapply Forall_impl; [|exact H].
  intros [|s|x y]; cbn; tauto.
Qed.

Lemma contains_total a b : readable a -> readable b ->
  exists r, contains a b = Ok r /\
   (r = true <->
     (first_in_range a = first_in_range b \/ ref_before (first_in_range a) (first_in_range b) \/
      is_parent_of (first_in_range a) (first_in_range b) = true) /\
     (last_in_range b = last_in_range a \/ ref_before (last_in_range b) (last_in_range a) \/
      is_parent_of (last_in_range a) (last_in_range b) = true)).
Proof.
  intros Ra Rb. unfold contains.
  destruct (ref_le_spec (first_in_range a) (first_in_range b)) as (r1 & E1 & H1);
    auto using first_no_ranges, first_readable.
  rewrite E1. cbn [bind]. rewrite ref_ge_spec by apply last_no_ranges.
  destruct (ref_le_spec (last_in_range b) (last_in_range a)) as (r2 & E2 & H2);
    auto using last_no_ranges, last_readable.
  rewrite E2. cbn [bind].
  destruct (r1 || is_parent_of (first_in_range a) (first_in_range b)) eqn:E.
  - exists (r2 || is_parent_of (last_in_range a) (last_in_range b)). split; [reflexivity|].
    rewrite orb_true_iff in *. rewrite H1 in E. rewrite H2. tauto.
  - exists false. split; [reflexivity|]. split; [discriminate|]. intros [H _].
    rewrite orb_false_iff in E. destruct E as [-> E]. rewrite E in H.
    destruct H as [H|[H|H]]; [| |discriminate]; exfalso; assert (false = true) by (apply H1; auto); discriminate.
Qed.

Lemma map_first_none l : Forall (eq RNone) l -> map part_first l = l /\ map part_last l = l.
Proof. induction 1 as [|x l <- _ [IH1 IH2]]; [auto|]. cbn. now rewrite IH1, IH2. Qed.
Lemma map_first_ids ids : map part_first (map RId ids) = map RId ids /\ map part_last (map RId ids) = map RId ids.
Proof. induction ids as [|x l [IH1 IH2]]; [auto|]. cbn. now rewrite IH1, IH2. Qed.
Lemma interval_padded xs ids lo hi : denotes_interval xs ids lo hi ->
  padded (map part_first xs) (ids ++ [lo]) /\ padded (map part_last xs) (ids ++ [hi]).
Proof.
  intros H. inversion H as [ids' s tail F|ids' x y tail F]; subst;
    rewrite !map_app; cbn [map part_first part_last];
    rewrite (proj1 (map_first_ids ids)), (proj2 (map_first_ids ids)),
      (proj1 (map_first_none tail F)), (proj2 (map_first_none tail F));
    split; exists tail; (split; [exact F|]); rewrite map_app, <- app_assoc; reflexivity.
Qed.
Lemma interval_canonical r ids lo hi : canonical r -> denotes_interval (levels r) ids lo hi ->
  canonical_path (ids ++ [lo]) /\ canonical_path (ids ++ [hi]).
Proof.
  intros C H.
  assert (CL : Forall part_canonical (levels r)).
  { unfold levels. destruct (r_act r); [exact C|]. inversion C; subst. assumption. }
  inversion H as [ids' s tail F E|ids' x y tail F E]; subst; rewrite <- E in CL;
    apply Forall_app in CL as [C1 C2]; rewrite Forall_map in C1; inversion C2 as [|? ? C3 _]; subst; cbn in C3;
    split; apply Forall_app; (split; [exact C1|]); repeat constructor; apply C3.
Qed.
Lemma interval_unique xs ids lo hi ids' lo' hi' :
  denotes_interval xs ids lo hi -> denotes_interval xs ids' lo' hi' -> ids = ids' /\ lo = lo' /\ hi = hi'.
Proof.
  intros H1 H2. destruct (interval_padded _ _ _ _ H1) as [A1 A2]. destruct (interval_padded _ _ _ _ H2) as [B1 B2].
  assert (U : forall xs p q, padded xs p -> padded xs q -> p = q).
  { clear. induction xs as [|x xs IH]; intros [|y p] [|z q] P Q; auto;
      try (now apply padded_nil_cons in P); try (now apply padded_nil_cons in Q).
    - apply padded_nil in P. apply padded_cons in Q as [-> _]. inversion P; discriminate.
    - apply padded_nil in Q. apply padded_cons in P as [-> _]. inversion Q; discriminate.
    - apply padded_cons in P as [-> P]. apply padded_cons in Q as [E Q]. inversion E. f_equal. auto. }
  pose proof (U _ _ _ A1 B1) as E1. pose proof (U _ _ _ A2 B2) as E2.
  apply app_inj_tail in E1 as [-> ->]. apply app_inj_tail in E2 as [_ ->]. auto.
Qed.
Lemma covers_inside r ids lo hi : canonical r -> denotes_interval (levels r) ids lo hi ->
  forall p, canonical_path p -> covers r p <-> inside (ids ++ [lo]) (ids ++ [hi]) p.
Proof.
  intros C D p Cp. destruct (interval_canonical r ids lo hi C D) as [C1 C2].
  assert (Hl : canonical_id lo) by (apply Forall_app in C1 as [_ C1]; now inversion C1).
  assert (Hh : canonical_id hi) by (apply Forall_app in C2 as [_ C2]; now inversion C2).
  rewrite <- within_inside by assumption. split.
  - intros (ids' & lo' & hi' & D' & W). destruct (interval_unique _ _ _ _ _ _ _ D D') as (-> & -> & ->). exact W.
  - intros W. now exists ids, lo, hi.
Qed.

Lemma contains_covers a b : simple_reference a -> simple_reference b -> (r_act a = None <-> r_act b = None) ->
  exists r, contains a b = Ok r /\
    (r = true <-> forall p, canonical_path p -> covers b p -> covers a p).
Proof.
  intros [Ca (idsA & loA & hiA & DA & VA)] [Cb (idsB & loB & hiB & DB & VB)] HA.
  destruct (contains_total a b) as (r & E & Hr); auto using canonical_readable.
  exists r. split; [exact E|]. rewrite Hr.
  destruct (interval_canonical a _ _ _ Ca DA) as [CA1 CA2].
  destruct (interval_canonical b _ _ _ Cb DB) as [CB1 CB2].
  destruct (interval_padded _ _ _ _ DA) as [PA1 PA2]. destruct (interval_padded _ _ _ _ DB) as [PB1 PB2].
  rewrite <- first_levels in PA1, PB1. rewrite <- last_levels in PA2, PB2.
  assert (dec : forall p, canonical_path p -> Forall decimal_id p).
  { intros p. apply Forall_impl. intros s [H _]. exact H. }
  destruct (levels_facts (first_in_range a) (first_in_range b)) as (F1 & F2 & F3 & F4); [exact HA|].
  destruct (levels_facts (last_in_range b) (last_in_range a)) as (L1 & L2 & _ & L4); [cbn; tauto|].
  destruct (levels_facts (last_in_range a) (last_in_range b)) as (_ & _ & L3 & _); [exact HA|].
  destruct (padded_facts _ _ _ _ PA1 PB1 F4 (dec _ CA1) (dec _ CB1)) as (G1 & G2 & G3).
  destruct (padded_facts _ _ _ _ PB2 PA2 L4 (dec _ CB2) (dec _ CA2)) as (K1 & K2 & _).
  destruct (padded_facts _ _ _ _ PA2 PB2 (eq_sym L4) (dec _ CA2) (dec _ CB2)) as (_ & _ & K3).
  rewrite F1, F2, F3, L1, L2, L3, G1, G2, G3, K1, K2, K3.
  assert (V : idlt loB hiB \/ loB = hiB).
  { apply not_after_canonical; [| |exact VB].
    - apply Forall_app in CB1 as [_ CB1]. now inversion CB1.
    - apply Forall_app in CB2 as [_ CB2]. now inversion CB2. }
  pose proof (inside_subset idsA loA hiA idsB loB hiB CA1 CA2 CB1 CB2 V) as S.
  assert (Eq : (forall p, canonical_path p -> covers b p -> covers a p) <->
               (forall p, canonical_path p -> inside (idsB ++ [loB]) (idsB ++ [hiB]) p -> inside (idsA ++ [loA]) (idsA ++ [hiA]) p)).
  { split; intros H p Cp Hp.
    - apply (covers_inside a idsA loA hiA Ca DA p Cp), H; [exact Cp|]. now apply (covers_inside b idsB loB hiB Cb DB p Cp).
    - apply (covers_inside a idsA loA hiA Ca DA p Cp), H; [exact Cp|]. now apply (covers_inside b idsB loB hiB Cb DB p Cp). }
  rewrite Eq, <- S. unfold ple. split.
  - intros [H1 H2]. split.
    + destruct H1 as [H1|[H1|[_ H1]]]; auto. apply pre_ple in H1. exact H1.
    + destruct H2 as [H2|[H2|[_ H2]]]; auto.
  - intros [H1 H2]. split; [tauto|]. destruct H2 as [[H2|H2]|H2]; auto.
    destruct (list_eq_dec (list_eq_dec N.eq_dec) (idsA ++ [hiA]) (idsB ++ [hiB])) as [Q|Q]; auto.
Qed.
Lemma contains_refl a : simple_reference a -> contains a a = Ok true.
Proof.
  intros H. destruct (contains_covers a a H H ltac:(tauto)) as (r & E & Hr). rewrite E. f_equal. apply Hr. auto.
Qed.
Lemma contains_trans a b c : simple_reference a -> simple_reference b -> simple_reference c ->
  (r_act a = None <-> r_act b = None) -> (r_act b = None <-> r_act c = None) ->
  contains a b = Ok true -> contains b c = Ok true -> contains a c = Ok true.
Proof.
  intros Ha Hb Hc A1 A2 H1 H2.
  destruct (contains_covers a b Ha Hb A1) as (r1 & E1 & R1).
  destruct (contains_covers b c Hb Hc A2) as (r2 & E2 & R2).
  destruct (contains_covers a c Ha Hc ltac:(tauto)) as (r3 & E3 & R3).
  rewrite E3. f_equal. apply R3. intros p Cp Hp.
  apply R1; [congruence|exact Cp|]. apply R2; [congruence|exact Cp|exact Hp].
Qed.

(** * Ranges *)
Lemma is_range_no_ranges r : is_range r = false <-> no_ranges r.
Proof.
  destruct r as [a p1 p2 p3 p4]. unfold is_range, no_ranges, components. cbn [r_act r_article r_paragraph r_point r_subpoint].
  split.
  - intros H. repeat rewrite orb_false_iff in H. destruct H as [[[H1 H2] H3] H4].
    repeat constructor; [destruct a|destruct p1|destruct p2|destruct p3|destruct p4]; try exact I; discriminate.
  - intros H. inversion H as [|? ? H0 Q0]; subst. inversion Q0 as [|? ? H1 Q1]; subst. inversion Q1 as [|? ? H2 Q2]; subst.
    inversion Q2 as [|? ? H3 Q3]; subst. inversion Q3 as [|? ? H4 Q4]; subst.
    destruct p1, p2, p3, p4; try contradiction; reflexivity.
Qed.
Lemma first_of_single r : is_range r = false -> first_in_range r = r /\ last_in_range r = r.
Proof.
  intros H. destruct r as [a p1 p2 p3 p4]. unfold is_range in H. cbn in H. unfold first_in_range, last_in_range. cbn.
  destruct p1, p2, p3, p4; try discriminate; auto.
Qed.
Lemma part_range_ok p q t : part_single p -> part_single q -> make_range_part p q = Ok t ->
  part_first t = p /\ part_last t = q.
Proof.
  destruct p as [|a|pa1 pa2], q as [|b|qb1 qb2]; cbn; try contradiction; try discriminate; intros _ _.
  - intros H. inversion H. auto.
  - destruct (str_eqb a b) eqn:E.
    + intros H. inversion H. apply str_eqb_eq in E. subst. auto.
    + destruct (identifier_less a b) as [[]|]; cbn; try discriminate. intros H. inversion H. auto.
Qed.
Lemma part_range_spec p q : part_single p -> part_single q -> part_readable p -> part_readable q ->
  (rangeable p q /\ exists t, make_range_part p q = Ok t) \/ (~ rangeable p q /\ make_range_part p q = Err AssertionError).
Proof.
  unfold rangeable. destruct p as [|a|pa1 pa2], q as [|b|qb1 qb2]; cbn; try contradiction; intros _ _ Ha Hb.
  - left. split; [auto|]. now eexists.
  - right. split; [|reflexivity]. intros [H|[H _]]; [discriminate|congruence].
  - right. split; [|reflexivity]. intros [H|[_ H]]; [discriminate|inversion H].
  - rewrite part_before_ids by assumption. destruct (str_eqb a b) eqn:E.
    + apply str_eqb_eq in E. subst. left. split; [auto|]. now eexists.
    + apply str_eqb_neq in E. destruct (identifier_less_total a b Ha Hb) as [[] El]; rewrite El; cbn [bind].
      * left. split; [right; split; [discriminate|reflexivity]|]. now eexists.
      * right. split; [|reflexivity]. intros [H|[_ H]]; congruence.
Qed.
