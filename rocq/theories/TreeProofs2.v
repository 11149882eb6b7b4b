From Coq Require Import ZifyBool ZifyNat ZifyN.
From Verif Require Import PyBase PyBaseFacts NumSpec IdModel IdSpec IdProofs LineModel DateModel RefModel RefSpec
  RefProofs RefProofs2 TreeModel TreeSpec TreeProofs.
Local Open Scope Z_scope.

(** * What contains() says about places *)
Definition ext (r d : reference) : Prop := exists n, truncated n d r.
Lemma ext_refl r : ext r r.
Proof.
  exists 5%nat. intros i. destruct (Nat.ltb_spec i 5); [reflexivity|]. now apply nth_part_out.
Qed.
Lemma ext_trans a b c : ext a b -> ext b c -> ext a c.
Proof. intros [n H] [m K]. exists (Nat.min n m). eapply truncated_trans; eauto. Qed.

Definition le_first (xs ys : list rpart) : Prop := xs = ys \/ lex xs ys \/ is_parent_loop xs ys = true.
Definition le_last (ys zs : list rpart) : Prop := ys = zs \/ lex ys zs \/ is_parent_loop zs ys = true.

Lemma nones_le xs : forall ys, Forall (eq RNone) xs -> List.length xs = List.length ys ->
  xs = ys \/ is_parent_loop xs ys = true.
Proof.
  induction xs as [|x xs IH]; intros [|y ys] F L; try discriminate; [now left|].
  inversion F as [|? ? <- F']; subst. cbn. destruct y as [|y|y1 y2]; cbn; auto.
  destruct (IH ys F' ltac:(cbn in L; lia)) as [->|E]; auto.
Qed.

Lemma selects_lists ids lo hi : Forall canonical_id ids -> canonical_id lo -> canonical_id hi ->
  forall xs ys zs, padded xs (ids ++ [lo]) -> padded zs (ids ++ [hi]) ->
  List.length xs = List.length ys -> List.length zs = List.length ys ->
  Forall part_canonical ys -> Forall part_single ys ->
  (le_first xs ys /\ le_last ys zs) <->
  exists x rest, ys = map RId ids ++ RId x :: rest /\ between lo x hi.
Proof.
  intros Ci Cl Ch. induction ids as [|i ids IH]; intros xs ys zs Px Pz L1 L2 Cy Sy; cbn [app map] in *.
  - destruct xs as [|x xs]; [now apply padded_nil_cons in Px|].
    destruct zs as [|z zs]; [now apply padded_nil_cons in Pz|].
    apply padded_cons in Px as [-> Px]. apply padded_cons in Pz as [-> Pz]. rewrite padded_nil in Px, Pz.
    destruct ys as [|y ys]; [discriminate|]. inversion Cy as [|? ? Cy1 Cy2]; inversion Sy as [|? ? Sy1 Sy2]; subst.
    cbn in L1, L2. split.
    + intros [H1 H2]. exists (match y with RId y0 => y0 | _ => [] end), ys.
      assert (Y : exists y0, y = RId y0).
      { destruct y as [|y|]; [|eauto|contradiction]. exfalso. destruct H1 as [E|[H|H]]; [discriminate| |discriminate].
        apply lex_cons in H as [H|[H _]]; [inversion H|discriminate]. }
      destruct Y as [y0 ->]. split; [reflexivity|]. cbn in Cy1. unfold between.
      rewrite !not_after_canonical by assumption. split.
      * destruct H1 as [E|[H|H]].
        -- inversion E. auto.
        -- apply lex_cons in H as [H|[E _]]; [left|right; congruence]. apply part_before_ids in H; [exact H|apply Cl|apply Cy1].
        -- cbn in H. destruct (str_eqb lo y0) eqn:E; [apply str_eqb_eq in E; auto|discriminate].
      * destruct H2 as [E|[H|H]].
        -- inversion E. auto.
        -- apply lex_cons in H as [H|[E _]]; [left|right; congruence]. apply part_before_ids in H; [exact H|apply Cy1|apply Ch].
        -- cbn in H. destruct (str_eqb hi y0) eqn:E; [apply str_eqb_eq in E; auto|discriminate].
    + intros (x & rest & E & B1 & B2). inversion E; subst. cbn in Cy1.
      rewrite not_after_canonical in B1, B2 by assumption. split.
      * destruct B1 as [B1| ->].
        -- right. left. apply lex_cons. left. apply part_before_ids; [apply Cl|apply Cy1|exact B1].
        -- destruct (nones_le xs rest Px ltac:(lia)) as [->|H]; [now left|]. right. right. cbn. now rewrite str_eqb_refl.
      * destruct B2 as [B2| ->].
        -- right. left. apply lex_cons. left. apply part_before_ids; [apply Cy1|apply Ch|exact B2].
        -- destruct (nones_le zs rest Pz ltac:(lia)) as [->|H]; [now left|]. right. right. cbn. now rewrite str_eqb_refl.
  - destruct xs as [|x xs]; [now apply padded_nil_cons in Px|].
    destruct zs as [|z zs]; [now apply padded_nil_cons in Pz|].
    apply padded_cons in Px as [-> Px]. apply padded_cons in Pz as [-> Pz].
    destruct ys as [|y ys]; [discriminate|]. inversion Cy as [|? ? Cy1 Cy2]; inversion Sy as [|? ? Sy1 Sy2]; subst.
    inversion Ci as [|? ? Ci1 Ci2]; subst. cbn in L1, L2.
    specialize (IH Ci2 xs ys zs Px Pz ltac:(lia) ltac:(lia) Cy2 Sy2).
    destruct (rpart_eq_dec (RId i) y) as [<-|N].
    + assert (A : le_first (RId i :: xs) (RId i :: ys) <-> le_first xs ys).
      { unfold le_first. rewrite lex_cons. cbn [is_parent_loop]. rewrite rpart_eqb_refl. cbn [negb]. split.
        - intros [E|[[H|[_ H]]|H]]; auto; [inversion E; auto|].
          exfalso. apply part_before_ids in H; [|apply Ci1|apply Ci1]. now apply identifier_less_irrefl in H.
        - intros [->|[H|H]]; auto. }
      assert (A' : le_last (RId i :: ys) (RId i :: zs) <-> le_last ys zs).
      { unfold le_last. rewrite lex_cons. cbn [is_parent_loop]. rewrite rpart_eqb_refl. cbn [negb]. split.
        - intros [E|[[H|[_ H]]|H]]; auto; [inversion E; auto|].
          exfalso. apply part_before_ids in H; [|apply Ci1|apply Ci1]. now apply identifier_less_irrefl in H.
        - intros [->|[H|H]]; auto. }
      rewrite A, A', IH. split.
      * intros (x & rest & -> & B). exists x, rest. auto.
      * intros (x & rest & E & B). inversion E. exists x, rest. auto.
    + split.
      * intros [H1 H2]. exfalso.
        assert (P1 : part_before (RId i) y).
        { destruct H1 as [E|[H|H]]; [inversion E; congruence| |].
          - apply lex_cons in H as [H|[E _]]; [exact H|congruence].
          - cbn [is_parent_loop] in H. destruct (rpart_eqb (RId i) y) eqn:E; cbn in H; [|discriminate].
            apply rpart_eqb_eq in E. congruence. }
        assert (P2 : part_before y (RId i)).
        { destruct H2 as [E|[H|H]]; [inversion E; congruence| |].
          - apply lex_cons in H as [H|[E _]]; [exact H|congruence].
          - cbn [is_parent_loop] in H. destruct (rpart_eqb (RId i) y) eqn:E; cbn in H; [|discriminate].
            apply rpart_eqb_eq in E. congruence. }
        destruct y as [|y|]; [inversion P1| |contradiction]. cbn in Cy1.
        apply part_before_ids in P1; [|apply Ci1|apply Cy1]. apply part_before_ids in P2; [|apply Cy1|apply Ci1].
        eapply identifier_less_asym; eauto.
      * intros (x & rest & E & _). inversion E. congruence.
Qed.

Lemma single_first r : no_ranges r -> first_in_range r = r /\ last_in_range r = r.
Proof.
  intros H. destruct r as [a p1 p2 p3 p4]. unfold no_ranges, components in H. cbn in H.
  inversion H as [|? ? _ K1]; inversion K1 as [|? ? S1 K2]; inversion K2 as [|? ? S2 K3]; inversion K3 as [|? ? S3 K4];
    inversion K4 as [|? ? S4 _]; subst.
  unfold first_in_range, last_in_range. cbn. destruct p1, p2, p3, p4; try contradiction; auto.
Qed.
Lemma abs_levels f : r_act f <> None -> levels f = components f.
Proof. unfold levels. destruct (r_act f); congruence. Qed.

Lemma contains_selects f r : simple_reference f -> r_act f <> None -> canonical r -> no_ranges r ->
  exists b, contains f r = Ok b /\ (b = true <-> selects f r).
Proof.
  intros [Cf (ids & lo & hi & D & V)] Af Cr Nr.
  destruct (contains_total f r) as (b & E & Hb); auto using canonical_readable.
  exists b. split; [exact E|]. rewrite Hb.
  destruct (interval_canonical f ids lo hi Cf D) as [C1 C2].
  destruct (interval_padded _ _ _ _ D) as [P1 P2]. rewrite abs_levels in P1, P2 by assumption.
  rewrite <- first_components in P1. rewrite <- last_components in P2.
  destruct (single_first r Nr) as [Ef El]. rewrite Ef, El.
  apply Forall_app in C1 as [Ci C1]. apply Forall_app in C2 as [_ C2].
  assert (Cl : canonical_id lo) by now inversion C1. assert (Ch : canonical_id hi) by now inversion C2.
  pose proof (selects_lists ids lo hi Ci Cl Ch (components (first_in_range f)) (components r) (components (last_in_range f))
                P1 P2 eq_refl eq_refl Cr Nr) as S.
  unfold le_first, le_last in S.
  assert (I : forall x y, components x = components y <-> x = y) by (split; [apply components_inj|congruence]).
  rewrite !I in S. rewrite !ref_before_lex. unfold is_parent_of. rewrite S. unfold selects. split.
  - intros (x & rest & H1 & H2). exists ids, lo, hi, x, rest. auto.
  - intros (ids' & lo' & hi' & x & rest & D' & H1 & H2).
    destruct (interval_unique _ _ _ _ _ _ _ D D') as (-> & -> & ->). eauto.
Qed.

(* a place above a selected one is not cut off *)
Lemma nth_map_ids ids x rest i : (i < List.length ids)%nat -> exists y, nth i (map RId ids ++ RId x :: rest) RNone = RId y /\ nth_error ids i = Some y.
Proof.
  revert i. induction ids as [|z ids IH]; intros [|i] H; cbn in *; try lia; [eauto|]. apply IH. lia.
Qed.
Lemma above_selected f r d : simple_reference f -> r_act f <> None -> canonical r -> no_ranges r -> ext r d ->
  selects f d -> contains f r = Ok true \/ contains r f = Ok true.
Proof.
  intros SF Af Cr Nr [n T] (ids & lo & hi & x & rest & D & Ed & B).
  destruct (Nat.ltb_spec (List.length ids) n) as [L|L].
  - left. destruct (contains_selects f r SF Af Cr Nr) as (b & E & Hb). rewrite E. f_equal. apply Hb.
    exists ids, lo, hi, x, (skipn (S (List.length ids)) (components r)). split; [exact D|]. split; [|exact B].
    assert (Len : (S (List.length ids) <= 5)%nat).
    { assert (X : List.length (components d) = 5%nat) by reflexivity. rewrite Ed in X. rewrite app_length, map_length in X. cbn in X. lia. }
    rewrite <- (firstn_skipn (S (List.length ids)) (components r)) at 1.
    replace (map RId ids ++ RId x :: skipn (S (List.length ids)) (components r))
      with ((map RId ids ++ [RId x]) ++ skipn (S (List.length ids)) (components r)) by now rewrite <- app_assoc.
    f_equal.
    assert (F : firstn (S (List.length ids)) (components d) = map RId ids ++ [RId x]).
    { rewrite Ed. replace (S (List.length ids)) with (List.length (map RId ids) + 1)%nat by (rewrite map_length; lia).
      now rewrite firstn_app_2. }
    rewrite <- F. apply nth_ext with (d := RNone) (d' := RNone).
    + rewrite !firstn_length. reflexivity.
    + intros i Hi. rewrite firstn_length in Hi. unfold truncated, nth_part in T.
      assert (NF : forall l : list rpart, nth i (firstn (S (List.length ids)) l) RNone = nth i l RNone).
      { intros l. rewrite <- (firstn_skipn (S (List.length ids)) l) at 2.
        destruct (Nat.ltb_spec i (List.length (firstn (S (List.length ids)) l))) as [K|K]; [now rewrite app_nth1|].
        rewrite firstn_length in K. rewrite (nth_overflow _ RNone); [|rewrite firstn_length; lia].
        symmetry. apply nth_overflow. rewrite firstn_skipn. lia. }
      rewrite !NF, T. destruct (Nat.ltb_spec i n); [reflexivity|lia].
  - right. destruct SF as [Cf (ids' & lo' & hi' & D' & V)].
    destruct (interval_unique _ _ _ _ _ _ _ D D') as (<- & <- & <-).
    destruct (contains_total r f) as (b & E & Hb); auto using canonical_readable. rewrite E. f_equal. apply Hb. clear Hb E b.
    destruct (single_first r Nr) as [-> ->].
    destruct (interval_padded _ _ _ _ D) as [P1 P2]. rewrite abs_levels in P1, P2 by assumption.
    rewrite <- first_components in P1. rewrite <- last_components in P2.
    assert (G : forall e w, padded (components w) (ids ++ [e]) -> is_parent_of r w = true).
    { intros e w (tail & Ft & Ew). unfold is_parent_of. rewrite Ew.
      assert (Hr : forall i, nth i (components r) RNone = if (i <? n)%nat then nth i (map RId ids ++ RId x :: rest) RNone else RNone).
      { intros i. rewrite <- Ed. apply T. }
      assert (Len : List.length (components r) = List.length (map RId (ids ++ [e]) ++ tail)) by now rewrite <- Ew.
      clear -Hr L Len. revert n Hr L Len. generalize (components r) as rs.
      induction ids as [|i ids IH]; intros rs n Hr L Len; cbn [map app] in *.
      - destruct rs as [|y rs]; [discriminate|]. cbn in L. assert (n = 0)%nat as -> by lia.
        specialize (Hr 0%nat). cbn in Hr. subst y. reflexivity.
      - destruct rs as [|y rs]; [discriminate|]. destruct n as [|n].
        + specialize (Hr 0%nat). cbn in Hr. subst y. reflexivity.
        + pose proof (Hr 0%nat) as H0. cbn in H0. subst y. cbn [is_parent_loop]. rewrite rpart_eqb_refl. cbn [negb].
          apply (IH rs n); [|cbn in L; lia|cbn in Len; lia]. intros j. specialize (Hr (S j)). cbn in Hr. exact Hr. }
    split; right; right; eauto.
Qed.

(** * Places *)
Definition fits (p : reference) (s : sae) : Prop :=
  match s_kind s with
  | KParagraph => r_paragraph p = RNone /\ r_point p = RNone /\ r_subpoint p = RNone
  | KNumericPoint | KAlphabeticPoint => r_point p = RNone /\ r_subpoint p = RNone
  | KAlphabeticSubpoint | KNumericSubpoint => r_subpoint p = RNone
  | KBlockAmendmentContainer => True
  end.

Lemma relative_place p s : s_kind s <> KBlockAmendmentContainer ->
  exists rel, relative_reference s = Ok rel /\ relative_to rel p = place p s.
Proof.
  intros K. unfold relative_reference, place. destruct (s_kind s); try congruence; eexists; (split; [reflexivity|]);
    destruct (s_identifier s); destruct p; reflexivity.
Qed.
Lemma relative_container s : s_kind s = KBlockAmendmentContainer -> relative_reference s = Err TypeError.
Proof. intros K. unfold relative_reference. now rewrite K. Qed.

Lemma place_ext p s : fits p s -> ext p (place p s).
Proof.
  intros F. unfold fits, place in *. destruct (s_identifier s) as [i|]; [|apply ext_refl].
  destruct p as [a p1 p2 p3 p4]. cbn in *. destruct (s_kind s); cbn in *.
  - exists 4%nat. intros [|[|[|[|[|[|j]]]]]]; cbn; auto.
  - exists 4%nat. intros [|[|[|[|[|[|j]]]]]]; cbn; auto.
  - destruct F as [-> ->]. exists 3%nat. intros [|[|[|[|[|[|j]]]]]]; cbn; auto.
  - destruct F as [-> ->]. exists 3%nat. intros [|[|[|[|[|[|j]]]]]]; cbn; auto.
  - apply ext_refl.
  - destruct F as (-> & -> & ->). exists 2%nat. intros [|[|[|[|[|[|j]]]]]]; cbn; auto.
Qed.
Lemma place_fits p s cs c : well_formed s -> fits p s -> s_children s = Some cs -> In (ChSae c) cs ->
  s_kind s <> KBlockAmendmentContainer -> fits (place p s) c.
Proof.
  intros W F Ec Hc K. pose proof (wf_allowed _ W cs _ Ec Hc) as M. cbn in M. unfold fits, place in *.
  destruct (s_kind s); inversion M; try congruence; destruct (s_identifier s); cbn; tauto.
Qed.
Lemma place_single p s : no_ranges p -> no_ranges (place p s).
Proof.
  intros H. unfold place. destruct (s_identifier s) as [i|]; [|exact H].
  destruct p as [a p1 p2 p3 p4]. unfold no_ranges, components in *. cbn in H.
  inversion H as [|? ? S0 K1]; inversion K1 as [|? ? S1 K2]; inversion K2 as [|? ? S2 K3]; inversion K3 as [|? ? S3 K4];
    inversion K4 as [|? ? S4 _]; subst. destruct (s_kind s); cbn; repeat constructor; auto.
Qed.

Definition child_nodes (b : bool) (r : reference) (c : child) : list (reference * sae) :=
  match c with ChSae x => nodes b r x | _ => [] end.
Definition children_nodes (b : bool) (r : reference) (cs : option (list child)) : list (reference * sae) :=
  match cs with None => [] | Some l => flat_map (child_nodes b r) l end.
Lemma nodes_container b p s : s_kind s = KBlockAmendmentContainer -> nodes b p s = [].
Proof. destruct s. cbn. intros ->. reflexivity. Qed.
Lemma nodes_eq b p s : s_kind s <> KBlockAmendmentContainer ->
  nodes b p s = if b then (place p s, s) :: children_nodes b (place p s) (s_children s)
                else children_nodes b (place p s) (s_children s) ++ [(place p s, s)].
Proof.
  destruct s as [k i t n cs w m]. cbn [s_kind]. intros K.
  assert (G : forall r l, (fix go (l : list child) : list (reference * sae) :=
               match l with [] => [] | ChSae c :: t => nodes b r c ++ go t | _ :: t => go t end) l
             = flat_map (child_nodes b r) l).
  { intros r l. induction l as [|[c| | |] l IH]; cbn; [reflexivity| | | |]; rewrite IH; reflexivity. }
  destruct k; try congruence; cbn [nodes s_children]; unfold children_nodes;
    destruct cs as [l|]; rewrite ?G; reflexivity.
Qed.

(* induction on elements through direct element children *)
Lemma sae_induct (P : sae -> Prop) :
  (forall s, (forall cs x, s_children s = Some cs -> In (ChSae x) cs -> P x) -> P s) -> forall s, P s.
Proof.
  intros H. fix IH 1. intros s. apply H. destruct s as [k i t n cs w m]. cbn [s_children].
  destruct cs as [l|]; [|intros cs x E; discriminate]. intros cs x E. injection E as <-.
  induction l as [|c l IHl]; [intros []|]. intros [E|Hx].
  - destruct c as [y| | |]; try discriminate. injection E as <-. apply IH.
  - apply IHl. exact Hx.
Qed.

Lemma nodes_ext s : forall b p r x, built_sae s -> fits p s -> In (r, x) (nodes b p s) -> ext (place p s) r.
Proof.
  induction s as [s IH] using sae_induct. intros b p r x B F H.
  destruct (sae_kind_eqb (s_kind s) KBlockAmendmentContainer) eqn:K.
  { apply sae_kind_eqb_eq in K. now rewrite nodes_container in H. }
  assert (K' : s_kind s <> KBlockAmendmentContainer) by (intros E; apply sae_kind_eqb_eq in E; congruence).
  rewrite nodes_eq in H by assumption.
  assert (G : In (r, x) (children_nodes b (place p s) (s_children s)) -> ext (place p s) r).
  { intros Hin. unfold children_nodes in Hin. destruct (s_children s) as [cs|] eqn:Ec; [|destruct Hin].
    apply in_flat_map in Hin as (c & Hc & Hin). destruct c as [y| | |]; try destruct Hin.
    destruct (built_local s B) as [W Bc]. specialize (Bc cs (ChSae y) Ec Hc).
    assert (Fy : fits (place p s) y) by (eapply place_fits; eauto).
    eapply ext_trans; [apply place_ext; exact Fy|]. eapply IH; eauto. now inversion Bc. }
  destruct b.
  - destruct H as [E|H]; [|auto]. inversion E. apply ext_refl.
  - apply in_app_or in H as [H|[E|[]]]; [auto|]. inversion E. apply ext_refl.
Qed.

(** * The two tests along the walk *)
Definition good_here (f : option reference) (r : reference) : Prop :=
  match f with None => True | Some f => simple_reference f /\ r_act f <> None /\ canonical r /\ no_ranges r end.
Lemma in_filter_spec f r : good_here f r -> exists b, in_filter r f = Ok b /\ (b = true <-> chosen_by f r).
Proof.
  destruct f as [f|]; cbn.
  - intros (H1 & H2 & H3 & H4). now apply contains_selects.
  - intros _. exists true. split; [reflexivity|tauto].
Qed.
Lemma disjoint_spec f r : good_here f r ->
  exists b, disjoint_from_filter r f = Ok b /\ (b = true -> forall d, ext r d -> ~ chosen_by f d).
Proof.
  destruct f as [f|]; cbn.
  - intros (H1 & H2 & H3 & H4). destruct (contains_selects f r H1 H2 H3 H4) as (b2 & E2 & _).
    destruct (contains_total r f) as (b1 & E1 & _); [now apply canonical_readable|apply canonical_readable; apply H1|].
    rewrite E1. cbn [bind]. destruct b1.
    + exists false. split; [reflexivity|discriminate].
    + rewrite E2. cbn [bind]. exists (negb b2). split; [reflexivity|]. intros N d X S.
      destruct (above_selected f r d H1 H2 H3 H4 X S) as [A|A]; [|congruence].
      rewrite A in E2. injection E2 as <-. discriminate.
  - intros _. exists false. split; [reflexivity|discriminate].
Qed.

Definition good_node (f : option reference) (p : reference) (s : sae) : Prop :=
  forall b r x, In (r, x) (nodes b p s) -> good_here f r.
Lemma good_self f p s : s_kind s <> KBlockAmendmentContainer -> good_node f p s -> good_here f (place p s).
Proof. intros K H. eapply (H true). rewrite nodes_eq by assumption. now left. Qed.
Lemma good_child f p s cs c : s_kind s <> KBlockAmendmentContainer -> good_node f p s -> s_children s = Some cs ->
  In (ChSae c) cs -> good_node f (place p s) c.
Proof.
  intros K H Ec Hc b r x Hin. apply (H b r x). rewrite nodes_eq by assumption.
  assert (In (r, x) (children_nodes b (place p s) (s_children s))).
  { rewrite Ec. cbn. apply in_flat_map. exists (ChSae c). auto. }
  destruct b; [now right|]. apply in_or_app. now left.
Qed.

(** * Visits *)
Lemma picks_app {E} (P : E -> Prop) l1 r1 l2 r2 : picks P l1 r1 -> picks P l2 r2 -> picks P (l1 ++ l2) (r1 ++ r2).
Proof. induction 1; cbn; auto; intros; constructor; auto. Qed.
Lemma picks_none {E} (P : E -> Prop) l : (forall x, In x l -> ~ P x) -> picks P l [].
Proof. induction l as [|x l IH]; intros H; constructor; [apply H; now left|]. apply IH. intros y Hy. apply H. now right. Qed.

Lemma mapM_st_visits {A B T} (g : A -> T * list reference -> res (B * (T * list reference))) (Q : reference -> Prop) (ns : A -> list reference) l :
  (forall x st log y st' log', In x l -> g x (st, log) = Ok (y, (st', log')) ->
     exists v, log' = log ++ v /\ picks Q (ns x) v) ->
  forall st log ys st' log', mapM_st g l (st, log) = Ok (ys, (st', log')) ->
  exists v, log' = log ++ v /\ picks Q (flat_map ns l) v.
Proof.
  induction l as [|x l IH]; intros H st log ys st' log' E; cbn in E.
  - injection E as <- <- <-. exists []. rewrite app_nil_r. split; [reflexivity|constructor].
  - apply bind_ok in E as ([y [st1 log1]] & E1 & E). apply bind_ok in E as ([ys1 [st2 log2]] & E2 & E).
    injection E as <- <- <-.
    destruct (H x st log y st1 log1 (or_introl eq_refl) E1) as (v1 & -> & P1).
    destruct (IH ltac:(intros; eapply H; eauto; now right) _ _ _ _ _ E2) as (v2 & -> & P2).
    exists (v1 ++ v2). rewrite app_assoc. split; [reflexivity|]. cbn. now apply picks_app.
Qed.

Lemma logged_run {T} (m : modifier T) r s st log s' st' log' :
  logged m r s (st, log) = Ok (s', (st', log')) -> m r s st = Ok (s', st') /\ log' = log ++ [r].
Proof. unfold logged. cbn. intros H. apply bind_ok in H as ([a b] & H1 & H). injection H as <- <- <-. auto. Qed.

Lemma sae_visits {T} (m : modifier T) f cf : keeps_place m ->
  forall fuel p s st log s' st' log', built_sae s -> fits p s -> good_node f p s ->
  sae_map fuel (logged m) f cf p s (st, log) = Ok (s', (st', log')) ->
  exists v, log' = log ++ v /\ picks (chosen_by f) (map fst (nodes (negb cf) p s)) v.
Proof.
  intros KP. induction fuel as [|fuel IH]; intros p s st log s' st' log' B F G H; [discriminate|]. cbn [sae_map] in H.
  destruct (sae_kind_eqb (s_kind s) KBlockAmendmentContainer) eqn:K0.
  { apply sae_kind_eqb_eq in K0. rewrite relative_container in H by assumption. injection H as <- <- <-.
    rewrite nodes_container by assumption. exists []. rewrite app_nil_r. split; [reflexivity|constructor]. }
  assert (K : s_kind s <> KBlockAmendmentContainer) by (intros E; apply sae_kind_eqb_eq in E; congruence). clear K0.
  destruct (relative_place p s K) as (rel & E0 & ER). rewrite E0 in H; cbv zeta in H; rewrite ER in H.
  pose proof (good_self f p s K G) as GS.
  destruct (disjoint_spec f _ GS) as (stop & ES & HS). rewrite ES in H. cbn [bind] in H.
  destruct stop.
  { injection H as <- <- <-. exists []. rewrite app_nil_r. split; [reflexivity|]. apply picks_none. intros r Hr.
    apply in_map_iff in Hr as ([r' x] & <- & Hr). cbn. apply HS; [reflexivity|]. eapply nodes_ext; eauto. }
  destruct (in_filter_spec f _ GS) as (sel & EF & HF). rewrite EF in H. cbn [bind] in H.
  destruct (built_local s B) as [W Bc].
  (* the children *)
  assert (CH : forall res st log ch stl, s_children res = s_children s ->
     (match s_children res with
      | None | Some [] => Ok (res, (st, log))
      | Some cs =>
         ' (new_children, st) <- mapM_st (fun c st => match c with
              | ChSae x => ' (y, st) <- sae_map fuel (logged m) f cf (place p s) x st ;; Ok (ChSae y, st)
              | _ => Ok (c, st) end) cs (st, log) ;;
         res <- evolve_children res (Some new_children) ;; Ok (res, st)
      end) = Ok (ch, stl) ->
     exists v, snd stl = log ++ v /\ picks (chosen_by f) (map fst (children_nodes (negb cf) (place p s) (s_children s))) v).
  { clear H st log st' log' s'. intros res st log ch stl EC H. rewrite EC in H. unfold children_nodes.
    destruct (s_children s) as [cs|] eqn:Ec.
    2:{ injection H as <- <-. exists []. cbn. rewrite app_nil_r. split; [reflexivity|constructor]. }
    destruct cs as [|c0 cs'] eqn:Ecs.
    { injection H as <- <-. exists []. cbn. rewrite app_nil_r. split; [reflexivity|constructor]. }
    rewrite <- Ecs in *. apply bind_ok in H as ([ys [st2 log2]] & H1 & H). apply bind_ok in H as (sr & _ & H).
    injection H as _ <-. cbn [snd].
    replace (map fst (flat_map (child_nodes (negb cf) (place p s)) cs))
      with (flat_map (fun c => map fst (child_nodes (negb cf) (place p s) c)) cs)
      by (clear; induction cs as [|c cs IHc]; cbn; [reflexivity|]; now rewrite map_app, IHc).
    revert H1. apply mapM_st_visits. intros c st1 log1 y st3 log3 Hc Hr. destruct c as [x| | |].
    - apply bind_ok in Hr as ([y' [st4 log4]] & Hr & E). injection E as <- <- <-. cbn [child_nodes].
      eapply IH; [| | |exact Hr].
      + specialize (Bc cs (ChSae x) eq_refl Hc). now inversion Bc.
      + eapply place_fits; eauto.
      + eapply good_child; eauto.
    - injection Hr as <- <- <-. exists []. rewrite app_nil_r. split; [reflexivity|constructor].
    - injection Hr as <- <- <-. exists []. rewrite app_nil_r. split; [reflexivity|constructor].
    - injection Hr as <- <- <-. exists []. rewrite app_nil_r. split; [reflexivity|constructor]. }
  rewrite nodes_eq by assumption.
  destruct cf; cbn [negb].
  - cbn [bind] in H. apply bind_ok in H as ([ch [st2 log2]] & H1 & H).
    destruct (CH _ _ _ _ _ eq_refl H1) as (v & E & P). cbn in E. subst log2. rewrite map_app. cbn [map fst].
    destruct sel.
    + apply logged_run in H as [_ ->]. exists (v ++ [place p s]). rewrite app_assoc. split; [reflexivity|].
      apply picks_app; [exact P|]. constructor; [now apply HF|constructor].
    + injection H as <- <- <-. exists (v ++ []). rewrite app_assoc, app_nil_r. split; [reflexivity|].
      apply picks_app; [exact P|]. constructor; [|constructor]. intros X. apply HF in X. discriminate.
  - cbn [map fst]. destruct sel.
    + apply bind_ok in H as ([res [st1 log1]] & H1 & H). apply logged_run in H1 as [H1 ->].
      destruct (KP _ _ _ _ _ H1) as (_ & _ & EC). apply bind_ok in H as ([ch [st2 log2]] & H2 & H).
      injection H as <- <- <-. destruct (CH _ _ _ _ _ EC H2) as (v & E & P). cbn in E. subst log2.
      exists (place p s :: v). rewrite <- app_assoc. split; [reflexivity|]. constructor; [now apply HF|exact P].
    + cbn [bind] in H. apply bind_ok in H as ([ch [st2 log2]] & H2 & H). injection H as <- <- <-.
      destruct (CH _ _ _ _ _ eq_refl H2) as (v & E & P). cbn in E. subst log2.
      exists v. split; [reflexivity|]. constructor; [|exact P]. intros X. apply HF in X. discriminate.
Qed.

Lemma article_relative a x :
  relative_to (article_reference x) (mk_ref (Some (act_identifier a)) RNone RNone RNone RNone) = article_place a x.
Proof. reflexivity. Qed.
Lemma article_single a x : no_ranges (article_place a x).
Proof. repeat constructor. Qed.
Lemma article_fits a x s : s_kind s = KParagraph -> fits (article_place a x) s.
Proof. unfold fits. intros ->. auto. Qed.

Lemma nodes_single s : forall b p r x, no_ranges p -> In (r, x) (nodes b p s) -> no_ranges r.
Proof.
  induction s as [s IH] using sae_induct. intros b p r x N H.
  destruct (sae_kind_eqb (s_kind s) KBlockAmendmentContainer) eqn:K.
  { apply sae_kind_eqb_eq in K. now rewrite nodes_container in H. }
  assert (K' : s_kind s <> KBlockAmendmentContainer) by (intros E; apply sae_kind_eqb_eq in E; congruence).
  rewrite nodes_eq in H by assumption. pose proof (place_single p s N) as N'.
  assert (G : In (r, x) (children_nodes b (place p s) (s_children s)) -> no_ranges r).
  { intros Hin. unfold children_nodes in Hin. destruct (s_children s) as [cs|] eqn:Ec; [|destruct Hin].
    apply in_flat_map in Hin as (c & Hc & Hin). destruct c as [y| | |]; try destruct Hin. eauto. }
  destruct b.
  - destruct H as [E|H]; [|auto]. inversion E. now subst.
  - apply in_app_or in H as [H|[E|[]]]; [auto|]. inversion E. now subst.
Qed.

Lemma good_paragraph a f x p : good_filter a f -> In (AArticle x) (act_children a) -> In p (a_paragraphs x) ->
  good_node f (article_place a x) p.
Proof.
  intros G Hx Hp b r y Hin. destruct f as [f|]; [|exact I]. destruct G as (G1 & G2 & G3 & G4). cbn.
  split; [exact G1|]. split; [exact G2|]. split.
  - apply (G4 b r y). unfold act_nodes. apply in_flat_map. exists (AArticle x). split; [exact Hx|].
    apply in_flat_map. eauto.
  - eapply nodes_single; [|exact Hin]. apply article_single.
Qed.
Lemma good_article a f x : good_filter a f -> In (AArticle x) (act_children a) -> good_here f (article_place a x).
Proof.
  intros G Hx. destruct f as [f|]; [|exact I]. destruct G as (G1 & G2 & G3 & G4). cbn. repeat (split; auto).
  apply article_single.
Qed.

Lemma act_visits {T} (m : modifier T) f cf fuel a st a' st' log : keeps_place m -> built_act a -> good_filter a f ->
  map_saes fuel a (logged m) f cf (st, []) = Ok (a', (st', log)) ->
  picks (chosen_by f) (map fst (act_nodes (negb cf) a)) log.
Proof.
  intros KP B G H. unfold map_saes, map_articles in H. apply bind_ok in H as ([ys [st2 log2]] & H & E).
  injection E as <- <- <-. unfold act_nodes.
  replace (map fst (flat_map _ (act_children a)))
    with (flat_map (fun c => map fst (match c with AStruct _ => [] | AArticle x => flat_map (nodes (negb cf) (article_place a x)) (a_paragraphs x) end)) (act_children a))
    by (generalize (act_children a) as l; clear; induction l as [|c l IHl]; cbn; [reflexivity|]; now rewrite map_app, IHl).
  eapply mapM_st_visits with (Q := chosen_by f) (ns := fun c => map fst (match c with AStruct _ => [] | AArticle x => flat_map (nodes (negb cf) (article_place a x)) (a_paragraphs x) end)) in H.
  1:{ destruct H as (v & E & P). cbn in E. now subst log2. }
  clear H ys st2 log2 st. intros c st log y st1 log1 Hc H. destruct c as [e|x].
  { injection H as <- <- <-. exists []. rewrite app_nil_r. split; [reflexivity|constructor]. }
  cbn [in_filter bind] in H. apply bind_ok in H as ([x' [st2 log2]] & H & E). injection E as <- <- <-.
  unfold article_map in H. rewrite article_relative in H.
  destruct (disjoint_spec f _ (good_article a f x G Hc)) as (stop & ES & HS). rewrite ES in H. cbn [bind] in H.
  destruct (B x Hc) as [Bx Px]. apply built_article_local in Bx as [_ Bx]. unfold paragraphs_only in Px. rewrite Forall_forall in Px.
  destruct stop.
  - injection H as <- <- <-. exists []. rewrite app_nil_r. split; [reflexivity|]. apply picks_none. intros r Hr.
    apply in_map_iff in Hr as ([r' z] & <- & Hr). apply in_flat_map in Hr as (p & Hp & Hr). cbn. apply HS; [reflexivity|].
    eapply ext_trans; [apply place_ext; apply article_fits; apply Px; exact Hp|]. eapply nodes_ext; eauto.
    apply article_fits; auto.
  - apply bind_ok in H as ([ps [st3 log3]] & H & E). apply bind_ok in E as (x2 & _ & E). injection E as <- <- <-.
    replace (map fst (flat_map (nodes (negb cf) (article_place a x)) (a_paragraphs x)))
      with (flat_map (fun p => map fst (nodes (negb cf) (article_place a x) p)) (a_paragraphs x))
      by (generalize (a_paragraphs x) as l; clear; induction l as [|c l IHl]; cbn; [reflexivity|]; now rewrite map_app, IHl).
    revert H. apply mapM_st_visits. intros p st4 log4 q st5 log5 Hp H.
    apply bind_ok in H as ([q' [st6 log6]] & H & E). apply bind_ok in E as (_ & _ & E). injection E as <- <- <-.
    eapply sae_visits; eauto using article_fits. eapply good_paragraph; eauto.
Qed.
