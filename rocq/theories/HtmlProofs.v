From Coq Require Import Lia.
From Coq Require Import ZifyBool ZifyNat ZifyN.
From Coq Require Import Permutation Sorting.Sorted.
From Verif Require Import PyBase PyBaseFacts IdModel LineModel DateModel RefModel RefSpec TreeModel TreeSpec StructModel HtmlModel HtmlSpec.
Local Open Scope Z_scope.

(** * Trees *)
Lemma node_induct (P : node -> Prop) : (forall tag attrs text cs tail, Forall P cs -> P (Node tag attrs text cs tail)) -> forall n, P n.
Proof. intros H. fix IH 1. intros [tag attrs text cs tail]. apply H. induction cs as [|c cs IHc]; constructor; [apply IH|exact IHc]. Qed.
Lemma inner_eq tag attrs text cs tail : inner (Node tag attrs text cs tail) = text ++ inners cs.
Proof. reflexivity. Qed.
Lemma inners_app a b : inners (a ++ b) = inners a ++ inners b.
Proof. apply flat_map_app. Qed.
Lemma no_space_app a b : no_space (a ++ b) = no_space a ++ no_space b.
Proof. apply filter_app. Qed.

(** * Links *)
Lemma insert_perm x l : Permutation (x :: l) (insert_link x l).
Proof. induction l as [|y l IH]; cbn; auto. destruct (link_le x y); auto. rewrite perm_swap. now constructor. Qed.
Lemma sort_perm l : Permutation l (sort_links l).
Proof. induction l as [|x l IH]; cbn; auto. rewrite <- insert_perm. now constructor. Qed.
Definition starts_le (a b : link) : Prop := lk_start a <= lk_start b.
Lemma insert_sorted x l : StronglySorted starts_le l -> StronglySorted starts_le (insert_link x l).
Proof.
  induction 1 as [|y l S IH F]; cbn; [repeat constructor|]. destruct (link_le x y) eqn:E.
  - assert (L : starts_le x y) by (unfold link_le, starts_le in *; lia). repeat constructor; auto. eapply Forall_impl; [|exact F]. unfold starts_le in *. intros. lia.
  - constructor; auto. assert (L : starts_le y x) by (unfold link_le, starts_le in *; lia). apply (Permutation_Forall (insert_perm x l)). constructor; auto.
Qed.
Lemma sort_sorted l : StronglySorted starts_le (sort_links l).
Proof. induction l; cbn; [constructor|]. now apply insert_sorted. Qed.

Definition disjoint_links (a b : link) : Prop := lk_end a <= lk_start b \/ lk_end b <= lk_start a.
Definition good_links (l : list link) : Prop := Forall (fun k => 0 <= lk_start k < lk_end k) l /\ ForallOrdPairs disjoint_links l.
Lemma pairs_perm l l' : Permutation l l' -> ForallOrdPairs disjoint_links l -> ForallOrdPairs disjoint_links l'.
Proof.
  induction 1 as [|x l l' P IH|x y l|l l' l'' P1 IH1 P2 IH2]; intros H; auto.
  - inversion H; subst. constructor; auto. now apply (Permutation_Forall P).
  - inversion H as [|? ? F H']; subst. inversion H' as [|? ? F' H'']; subst. inversion F; subst. constructor; [constructor; auto; unfold disjoint_links in *; tauto|]. constructor; auto.
Qed.
Fixpoint chain (prev : Z) (l : list link) : Prop :=
  match l with [] => True | k :: t => prev <= lk_start k < lk_end k /\ chain (lk_end k) t end.
Lemma chain_weaken p q l : q <= p -> chain p l -> chain q l.
Proof. destruct l; cbn; auto. intros L [? ?]. split; auto. lia. Qed.
Lemma chain_lower p l : chain p l -> Forall (fun k => p <= lk_start k < lk_end k) l.
Proof.
  revert p. induction l as [|k l IH]; intros p C; cbn in C; constructor; [tauto|]. destruct C as [B C]. eapply Forall_impl; [|exact (IH _ C)]. cbn. intros. lia.
Qed.
Lemma chain_good l : chain 0 l -> good_links l.
Proof.
  intros C. split; [exact (chain_lower 0 l C)|]. revert C. generalize 0. induction l as [|k l IH]; intros p C; cbn in C; constructor; [|now apply (IH (lk_end k))].
  destruct C as [B C]. eapply Forall_impl; [|exact (chain_lower _ _ C)]. cbn. unfold disjoint_links. intros. lia.
Qed.
Lemma good_chain p l : StronglySorted starts_le l -> good_links l -> Forall (fun k => p <= lk_start k) l -> chain p l.
Proof.
  intros S. revert p. induction S as [|k l S IH F]; intros p [G D] L; cbn; auto. inversion G; inversion D; inversion L; subst. split; [lia|]. apply IH; [split; auto|].
  rewrite Forall_forall in *. intros j I. match goal with H : forall x, In x l -> disjoint_links k x |- _ => specialize (H j I) end. specialize (F j I). match goal with H : forall x, In x l -> 0 <= _ < _ |- _ => specialize (H j I) end.
  unfold disjoint_links, starts_le in *. lia.
Qed.
Lemma sorted_chain l : chain 0 (sort_links l) <-> good_links l.
Proof.
  split.
  - intros C. apply chain_good in C as [G D]. split; [apply (Permutation_Forall (Permutation_sym (sort_perm l)) G)|apply (pairs_perm (sort_links l)); auto; symmetry; apply sort_perm].
  - intros [G D]. apply good_chain; [apply sort_sorted| |].
    + split; [apply (Permutation_Forall (sort_perm l) G)|apply (pairs_perm l); auto; apply sort_perm].
    + eapply Forall_impl; [|apply (Permutation_Forall (sort_perm l) G)]. cbn. intros. lia.
Qed.
Lemma loop_result text l : forall p, (chain p l /\ exists r, link_loop text p l = Ok r) \/ (~ chain p l /\ link_loop text p l = Err AssertionError).
Proof.
  induction l as [|k l IH]; intros p; cbn [link_loop chain]; [left; eauto|]. destruct (p <=? lk_start k) eqn:E1; cbn [negb]; [|right; split; auto; lia]. destruct (lk_start k <? lk_end k) eqn:E2; cbn [negb]; [|right; split; auto; lia].
  destruct (IH (lk_end k)) as [[C ([a r] & ->)]|[C ->]]; cbn [bind]; [left|right]; split; eauto; try tauto. split; [lia|auto].
Qed.

Lemma norm_nonneg n i : 0 <= i -> norm_bound n i = Nat.min (Z.to_nat i) n.
Proof. intros H. unfold norm_bound. destruct (i <? 0) eqn:E; [lia|]. lia. Qed.
Lemma skip_skip {A} n : forall m (s : list A), skipn n (skipn m s) = skipn (m + n) s.
Proof. intros m. induction m as [|m IH]; intros s; auto. destruct s; cbn [skipn plus]; [now rewrite !skipn_nil|]. apply IH. Qed.
Lemma slice_skip (i j : nat) (s : pystr) : (i <= j)%nat -> slice_nat (Nat.min i (List.length s)) (Nat.min j (List.length s)) s ++ skipn j s = skipn i s.
Proof.
  intros L. unfold slice_nat. destruct (Nat.le_gt_cases j (List.length s)) as [B|B].
  - rewrite !Nat.min_l by lia. rewrite <- (firstn_skipn (j - i) (skipn i s)) at 2. f_equal. rewrite skip_skip. f_equal. lia.
  - rewrite (@skipn_all2 _ j s) by lia. rewrite app_nil_r, (Nat.min_r j) by lia. destruct (Nat.le_gt_cases i (List.length s)) as [B'|B'].
    + rewrite Nat.min_l by lia. apply firstn_all2. rewrite skipn_length. lia.
    + rewrite Nat.min_r by lia. rewrite !skipn_all2 by lia. now rewrite firstn_nil.
Qed.
Lemma py_slice_skip (i j : Z) (s : pystr) : 0 <= i <= j -> py_slice i j s ++ skipn (Z.to_nat j) s = skipn (Z.to_nat i) s.
Proof. intros L. unfold py_slice. rewrite !norm_nonneg by lia. apply slice_skip. lia. Qed.
Lemma py_slice_len (i j : Z) (s : pystr) : 0 <= i <= j -> j <= Z.of_nat (List.length s) -> Z.of_nat (List.length (py_slice i j s)) = j - i.
Proof. intros L B. unfold py_slice. rewrite !norm_nonneg by lia. unfold slice_nat. rewrite firstn_length, skipn_length. lia. Qed.
Lemma py_slice_past (i : Z) (s : pystr) : 0 <= i -> Z.of_nat (List.length s) <= i -> forall j, py_slice i j s = [].
Proof. intros L B j. unfold py_slice. rewrite (norm_nonneg _ i) by lia. rewrite Nat.min_r by lia. unfold slice_nat. rewrite skipn_all2 by lia. apply firstn_nil. Qed.
Lemma py_slice_between (i j : Z) (s : pystr) : 0 <= i <= j -> py_slice i j s = between_positions i j s.
Proof.
  intros L. unfold py_slice, between_positions, slice_nat. rewrite !norm_nonneg by lia. destruct (Z.le_gt_cases (Z.of_nat (List.length s)) i) as [B|B].
  - rewrite (Nat.min_r (Z.to_nat i)) by lia. rewrite !skipn_all2 by lia. now rewrite !firstn_nil.
  - rewrite (Nat.min_l (Z.to_nat i)) by lia. destruct (Z.le_gt_cases j (Z.of_nat (List.length s))) as [B'|B'].
    + rewrite Nat.min_l by lia. f_equal. lia.
    + rewrite Nat.min_r by lia. rewrite !firstn_all2; auto; rewrite skipn_length; lia.
Qed.

Definition link_node (text : pystr) (k : link) (c : node) : Prop :=
  n_tag c = u8 "a" /\ n_attrs c = [(u8 "href", lk_href k)] /\ n_text c = between_positions (lk_start k) (lk_end k) text /\ n_children c = [].
Lemma loop_text text l : forall p before ns, 0 <= p -> chain p l -> link_loop text p l = Ok (before, ns) ->
  before ++ inners ns = skipn (Z.to_nat p) text /\ Forall2 (link_node text) l ns.
Proof.
  induction l as [|k l IH]; intros p before ns P C E; cbn [link_loop chain] in *.
  - injection E as <- <-. split; [|constructor]. cbn. rewrite app_nil_r. destruct (Z.le_gt_cases p (Z.of_nat (List.length text))) as [B|B].
    + rewrite <- (py_slice_skip p (Z.of_nat (List.length text)) text) by lia. rewrite Nat2Z.id, skipn_all. now rewrite app_nil_r.
    + rewrite py_slice_past by lia. rewrite skipn_all2 by lia. reflexivity.
  - destruct C as [B C]. destruct (p <=? lk_start k) eqn:E1; [|lia]. destruct (lk_start k <? lk_end k) eqn:E2; [|lia]. cbn [negb] in E. apply bind_ok in E as ([a r] & Er & E). injection E as <- <-.
    destruct (IH (lk_end k) a r ltac:(lia) C Er) as [T F]. split.
    + cbn [inners flat_map]. rewrite inner_eq. cbn [n_tail inners flat_map]. rewrite app_nil_r. fold (inners r). rewrite <- app_assoc, T, (py_slice_skip (lk_start k) (lk_end k) text) by lia. apply py_slice_skip. lia.
    + constructor; auto. repeat split. cbn [n_text]. apply py_slice_between. lia.
Qed.
Lemma loop_at text l : forall p before ns, 0 <= p -> chain p l -> link_loop text p l = Ok (before, ns) -> forall k, In k l -> lk_start k <= Z.of_nat (List.length text) ->
  exists pre c post, ns = pre ++ c :: post /\ lk_start k = p + Z.of_nat (List.length (before ++ inners pre)) /\ link_node text k c.
Proof.
  induction l as [|k0 l IH]; intros p before ns P C E k I Lk; [destruct I|]. cbn [link_loop chain] in *. destruct C as [B C]. destruct (p <=? lk_start k0) eqn:E1; [|lia]. destruct (lk_start k0 <? lk_end k0) eqn:E2; [|lia]. cbn [negb] in E. apply bind_ok in E as ([a r] & Er & E). injection E as <- <-.
  destruct I as [->|I].
  - exists [], (Node (u8 "a") [(u8 "href", lk_href k)] (py_slice (lk_start k) (lk_end k) text) [] a), r. split; [reflexivity|]. split; [cbn [inners flat_map]; rewrite app_nil_r, py_slice_len by lia; lia|]. repeat split. cbn [n_text]. apply py_slice_between. lia.
  - destruct (IH (lk_end k0) a r ltac:(lia) C Er k I Lk) as (pre & c & post & -> & Ep & N). eexists (_ :: pre), c, post. split; [reflexivity|]. split; [|exact N]. cbn [inners flat_map]. fold (inners pre). rewrite inner_eq. cbn [n_tail inners flat_map]. rewrite app_nil_r, !app_length, !Nat2Z.inj_add.
    assert (lk_end k0 <= lk_start k). { pose proof (chain_lower _ _ C) as F. rewrite Forall_forall in F. specialize (F k I). lia. }
    rewrite (py_slice_len p) by lia. rewrite (py_slice_len (lk_start k0)) by lia. rewrite app_length in Ep. lia.
Qed.

Definition link_of (current : reference) (o : outgoing_reference) : link := mk_link (or_start o) (or_end o) (get_href (relative_to (or_reference o) current)).
Lemma good_map current os : good_links (map (link_of current) os) <-> good_positions os.
Proof.
  assert (F : forall (P : link -> Prop) l, Forall P (map (link_of current) l) <-> Forall (fun o => P (link_of current o)) l).
  { intros P l. rewrite !Forall_forall. split; [intros H x I; apply H; now apply in_map|]. intros H x I. apply in_map_iff in I as (o & <- & I). auto. }
  unfold good_links, good_positions. rewrite F. apply and_iff_compat_l. induction os as [|o os IH]; [split; constructor|]. cbn [map]. split; intros H; inversion H as [|? ? H1 H2]; subst; constructor.
  - now apply F in H1.
  - now apply IH.
  - now apply F.
  - now apply IH.
Qed.
Theorem links_result attrs text current os :
  (good_positions os /\ exists n, text_with_links attrs text current os = Ok n) \/ (~ good_positions os /\ text_with_links attrs text current os = Err AssertionError).
Proof.
  unfold text_with_links. change (map _ os) with (map (link_of current) os). rewrite <- (good_map current), <- sorted_chain. destruct (loop_result text (sort_links (map (link_of current) os)) 0) as [[C ([a r] & ->)]|[C ->]]; [left|right]; split; auto. cbn [bind]. eauto.
Qed.
Theorem links_text attrs text current os n : text_with_links attrs text current os = Ok n ->
  inner n = text /\ n_tail n = [] /\ n_tag n = u8 "div" /\ n_attrs n = attrs /\ List.length (n_children n) = List.length os /\
  Forall (fun c => n_tag c = u8 "a" /\ n_children c = [] /\ exists h, n_attrs c = [(u8 "href", h)]) (n_children n) /\
  forall o, In o os -> or_start o <= Z.of_nat (List.length text) ->
    exists c, link_at n (or_start o) c /\ n_attrs c = [(u8 "href", get_href (relative_to (or_reference o) current))] /\ n_text c = between_positions (or_start o) (or_end o) text.
Proof.
  unfold text_with_links. change (map _ os) with (map (link_of current) os). intros E. apply bind_ok in E as ([before ns] & E & En). injection En as <-.
  destruct (loop_result text (sort_links (map (link_of current) os)) 0) as [[C _]|[_ C]]; [|congruence]. destruct (loop_text text _ 0 before ns ltac:(lia) C E) as [T F].
  split; [rewrite inner_eq; exact T|]. repeat (split; [reflexivity|]). split; [|split].
  - cbn [n_children]. assert (L : List.length ns = List.length (sort_links (map (link_of current) os))) by (clear -F; induction F; cbn; congruence). rewrite L, <- (Permutation_length (sort_perm _)). apply map_length.
  - cbn [n_children]. clear -F. induction F as [|k c l ns (N1 & N3 & _ & N2)]; constructor; eauto.
  - intros o I B. destruct (loop_at text _ 0 before ns ltac:(lia) C E (link_of current o)) as (pre & c & post & -> & Ep & N1 & N2 & N3 & N4); [apply (Permutation_in _ (sort_perm _)); now apply in_map|exact B|].
    exists c. split; [|split; auto]. exists pre, post. split; [reflexivity|]. cbn [n_text lk_start link_of] in *. lia.
Qed.
