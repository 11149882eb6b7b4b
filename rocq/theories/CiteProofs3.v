(* What the collector makes of lists. *)
From Coq Require Import Lia Permutation Sorted.
From Coq Require Import ZifyBool ZifyNat ZifyN.
From Verif Require Import PyBase PyBaseFacts NumModel IdModel IdProofs StructProofs RefModel RefSpec TreeModel SemModel GramModel GramSpec GramProofs GramProofs2 GramProofs3 PegModel PegSpec PegSpec2 PegProofs11 PegProofs13 CiteSpec.
Local Open Scope Z_scope.

(** * Grouping *)

Lemma grouped_types l out : grouped l out -> forall P : part_type -> Prop, Forall (fun x => P (ad_type x)) l -> Forall (fun x => P (ad_type x)) out.
Proof.
  induction 1 as [|x l out N G IH|x y a b l out F Ex Ey G IH]; intros P H; [constructor| |]; apply Forall_cons_iff in H as [H1 H2]; [constructor; auto|].
  apply Forall_cons_iff in H2 as [_ H2]. constructor; [exact H1|auto].
Qed.
Lemma grouped_app l out l' out' : grouped l out -> grouped l' out' -> (forall x y, In x l -> In y l' -> ad_type x <> ad_type y) -> grouped (l ++ l') (out ++ out').
Proof.
  intros G G'. induction G as [|x l out N G IH|x y a b l out F Ex Ey G IH]; intros T; [exact G'| |]; cbn [app].
  - apply gr_one; [|apply IH; intros u v U V; apply T; [now right|exact V]]. intros y t E. destruct l as [|z l].
    + cbn [app] in E. intros [X _]. apply (T x y); [now left|rewrite E; now left|exact X].
    + injection E as -> E. now apply (N y l).
  - apply gr_two; auto. apply IH. intros u v U V. apply T; [right; now right|exact V].
Qed.

(** * Sorting *)

Definition starts_lt (x y : item) : Prop := item_start x < item_start y.
Lemma sorted_unique b : StronglySorted starts_lt b -> forall a, StronglySorted starts_le a -> Permutation a b -> a = b.
Proof.
  induction 1 as [|y b S IH F]; intros a A P; [now apply Permutation_nil, Permutation_sym|].
  destruct a as [|x a]; [now apply Permutation_nil in P|].
  assert (E : x = y).
  { assert (X : In x (y :: b)) by (eapply Permutation_in; [exact P|now left]). assert (Y : In y (x :: a)) by (eapply Permutation_in; [apply Permutation_sym; exact P|now left]).
    destruct X as [X|X]; [now symmetry|]. destruct Y as [Y|Y]; [exact Y|]. rewrite Forall_forall in F. apply F in X. apply StronglySorted_inv in A as [_ A]. rewrite Forall_forall in A. apply A in Y. unfold starts_lt, starts_le in *. lia. }
  subst y. f_equal. apply IH; [now apply StronglySorted_inv in A|]. now apply Permutation_cons_inv in P.
Qed.
Lemma order_items out : in_text_order out -> StronglySorted starts_lt (map to_item out).
Proof.
  induction 1 as [|x l S IH F]; [constructor|]. cbn [map]. constructor; [exact IH|]. apply Forall_forall. intros i I. apply in_map_iff in I as (y & <- & Y). rewrite Forall_forall in F. exact (F y Y).
Qed.
Definition level_items (l : list addition) : list item := match l with [] => [NO_ITEM] | _ => map to_item l end.
Lemma arranged_out g out : Permutation g out -> in_text_order out -> arranged (level_items g) = level_items out.
Proof.
  intros P O. destruct out as [|x out]; [apply Permutation_sym, Permutation_nil in P; subst g; reflexivity|]. destruct g as [|y g]; [now apply Permutation_nil in P|].
  change (level_items (y :: g)) with (map to_item (y :: g)). change (level_items (x :: out)) with (map to_item (x :: out)). apply sorted_unique; [now apply order_items|apply arranged_sorted|].
  rewrite arranged_perm. now apply Permutation_map.
Qed.
Lemma arranged_sorted_id out : in_text_order out -> arranged (level_items out) = level_items out.
Proof. intros O. now apply arranged_out. Qed.

(** * What is said *)

Lemma set_with r n v : (n < 4)%nat -> set_arg r n v = with_part r (S n) v.
Proof. intros H. destruct n as [|[|[|[|n]]]]; try reflexivity; lia. Qed.
Lemma iter_levels_arranged k l ls so args : iter_levels k (l :: ls) so args = iter_levels k (arranged l :: ls) so args.
Proof.
  cbn [iter_levels]. fold (arranged l). fold (arranged (arranged l)). replace (arranged (arranged l)) with (arranged l); [reflexivity|].
  destruct l as [|x [|y l]]; [reflexivity|reflexivity|]. unfold arranged at 2. assert (St : StronglySorted starts_le (sort_items (x :: y :: l))) by apply sort_items_sorted.
  assert (L : length (sort_items (x :: y :: l)) = S (S (length l))) by (rewrite (Permutation_length (sort_items_perm (x :: y :: l))); reflexivity).
  change (arranged (x :: y :: l)) with (sort_items (x :: y :: l)). destruct (sort_items (x :: y :: l)) as [|x' [|y' l']]; try discriminate L. unfold arranged.
  clear L. remember (x' :: y' :: l') as m. clear Heqm. induction St as [|z m S IH F]; [reflexivity|]. cbn [sort_items]. rewrite <- IH. destruct m as [|u m]; [reflexivity|]. apply Forall_cons_iff in F as [F _]. cbn [insert_item].
  unfold starts_le in F. destruct (item_start z <=? item_start u) eqn:Q; [reflexivity|lia].
Qed.
Definition blank_from (n : nat) (r : reference) : Prop := forall j, (n <= j <= 4)%nat -> nth_part r j = RNone.
Lemma blank_with n r v : (1 <= n)%nat -> blank_from n r -> blank_from (S n) (with_part r n v).
Proof. intros N B j J. destruct n as [|[|[|[|n]]]]; cbn [with_part]; specialize (B j ltac:(lia)); destruct j as [|[|[|[|[|j]]]]]; cbn in *; try lia; exact B. Qed.
Lemma with_none n r : (1 <= n <= 4)%nat -> blank_from n r -> with_part r n RNone = r.
Proof. intros N B. specialize (B n ltac:(lia)). destruct r, n as [|[|[|[|[|n]]]]]; cbn in *; try lia; subst; reflexivity. Qed.
Lemma iter_cites n ls r s e out : cites n ls r s e out -> forall k, n = S k -> (k + length ls <= 4)%nat -> blank_from n r -> Forall in_text_order ls ->
  exists refs o args, iter_levels k (map level_items ls) (Some s) r = (refs, Some o, args) /\ out = refs ++ [mk_outgoing o e args].
Proof.
  intros C. induction C as [n r s e|n ls r s e out C IH|n x ls r s e out C IH|n x y l ls r s e out C IH]; intros k -> K B F.
  - exists [], s, r. split; reflexivity.
  - cbn [length] in K. apply Forall_cons_iff in F as [_ F]. destruct (IH (S k) eq_refl ltac:(lia) ltac:(intros j J; apply B; lia) F) as (refs & o & args & E & ->). exists refs, o, args. split; [|reflexivity].
    cbn [map iter_levels level_items]. cbn [removelast iter_level last NO_ITEM fst]. rewrite set_with by lia. rewrite with_none by (first [exact B|clear - K; lia]). rewrite E. reflexivity.
  - cbn [length] in K. apply Forall_cons_iff in F as [_ F]. destruct (IH (S k) eq_refl ltac:(lia) (blank_with (S k) r (ad_data x) ltac:(lia) B) F) as (refs & o & args & E & ->). exists refs, o, args. split; [|reflexivity].
    cbn [map iter_levels level_items]. cbn [removelast iter_level last to_item fst]. rewrite set_with by lia. rewrite E. reflexivity.
  - pose proof F as F0. apply Forall_cons_iff in F as [O F]. pose proof (StronglySorted_inv O) as [O' _]. destruct (IH k eq_refl K B (Forall_cons _ O' F)) as (refs & o & args & E & ->).
    exists (mk_outgoing s (ad_end x) (with_part r (S k) (ad_data x)) :: refs), o, args. split; [|reflexivity]. cbn [length] in K.
    cbn [map] in *. cbn [iter_levels] in *. fold (arranged (level_items (x :: y :: l))). fold (arranged (level_items (y :: l))) in E. rewrite arranged_sorted_id in * by assumption.
    change (level_items (x :: y :: l)) with (to_item x :: map to_item (y :: l)). change (level_items (y :: l)) with (map to_item (y :: l)) in E.
    change (last (to_item x :: map to_item (y :: l)) NO_ITEM) with (last (map to_item (y :: l)) NO_ITEM). change (removelast (to_item x :: map to_item (y :: l))) with (to_item x :: removelast (map to_item (y :: l))).
    cbn [iter_level to_item]. fold (to_item x). rewrite set_with by lia.
    assert (Q : exists o1 oo, (iter_level k (removelast (map to_item (y :: l))) (Some (ad_start y)) r = (o1, oo) /\
       exists oo', iter_level k (removelast (map to_item (y :: l))) None r = (o1, oo') /\ match oo with None => Some (item_start (last (map to_item (y :: l)) NO_ITEM)) | Some _ => oo end = match oo' with None => Some (item_start (last (map to_item (y :: l)) NO_ITEM)) | Some _ => oo' end)).
    { cbn [map removelast]. destruct (map to_item l) as [|i t]; [exists [], (Some (ad_start y)); split; [reflexivity|]; exists None; split; reflexivity|]. cbn [iter_level to_item]. fold (to_item y).
      destruct (iter_level k (removelast (i :: t)) None r) as [o1 oo] eqn:G. exists (mk_outgoing (ad_start y) (ad_end y) (set_arg r k (ad_data y)) :: o1), oo. split; [reflexivity|]. exists oo. split; reflexivity. }
    destruct Q as (o1 & oo & Q1 & oo' & Q2 & Q3). rewrite Q1 in E. rewrite Q2. rewrite <- Q3.
    match type of E with context [iter_levels (S k) ?a ?b ?c] => destruct (iter_levels (S k) a b c) as [[out' o2] args'] end. injection E as <- -> <-. reflexivity.
Qed.

(** * The collector takes them *)

Lemma add_after c x : tame_collector c -> ad_type x = PAlphabeticSubpoint -> fine (add_item c (ad_type x) (ad_data x) (ad_start x) (ad_end x)).
Proof.
  intros T X. rewrite X. unfold add_item. assert (M : mergeable_into_deferred c PAlphabeticSubpoint (ad_data x) = Ok false).
  { unfold mergeable_into_deferred. destruct (co_deferred c) as [d|] eqn:D; [|reflexivity]. specialize (T d D). destruct (d_type d) eqn:Q; try reflexivity. cbn [part_type_eqb negb]. destruct (d_data d); cbn [tame_item tame_id] in T; [destruct T|destruct T|].
    cbn [is_tuple]. rewrite orb_true_r. reflexivity. }
  rewrite M. eexists. reflexivity.
Qed.
Lemma add_all_ends c l : tame_collector c -> Forall (fun x => tame_item (ad_type x) (ad_data x)) l -> exists c', add_all c l = Ok c' /\ tame_collector c'.
Proof.
  revert c. induction l as [|x l IH]; intros c T F; [exists c; auto|]. apply Forall_cons_iff in F as [X F]. cbn [add_all]. destruct (add_tame c _ _ (ad_start x) (ad_end x) T X) as (c' & -> & T'). cbn [bind]. auto.
Qed.
Lemma new_tame act : tame_collector (new_collector act). Proof. intros d D. discriminate D. Qed.
Lemma part_id_tame t i : part_id t i -> t <> PAlphabeticSubpoint -> tame_id t i.
Proof.
  intros I N. destruct t; cbn [part_id tame_id] in *; try exact Logic.I; try exact I; [now apply paragraph_numbered| |contradiction].
  assert (R : forall n, digits n -> remove_chr 47 n = n) by (intros n [_ D]; apply remove_chr_digits; exact D).
  destruct I as [n D|n c D C|n c D C].
  - exists n, []. rewrite R, app_nil_r by exact D. split; [reflexivity|]. split; [exact D|constructor].
  - exists n, [c]. rewrite remove_chr_app, R by exact D. split; [|split; [exact D|constructor; exact C]]. f_equal. cbn. unfold is_small in C. destruct (N.eqb_spec c 47); [lia|reflexivity].
  - exists n, [c]. rewrite remove_chr_app, R by exact D. split; [|split; [exact D|constructor; exact C]]. f_equal. cbn. unfold is_small in C. destruct (N.eqb_spec c 47); [lia|reflexivity].
Qed.
Lemma items_tame t k x items : items_written t k x items -> t <> PAlphabeticSubpoint -> Forall (fun a => tame_item (ad_type a) (ad_data a)) items.
Proof.
  intros W N. assert (I : forall p x, item_written t p x -> tame_item t p) by (intros p y [i I|i d j I J D]; cbn; [now apply part_id_tame|exact Logic.I]).
  induction W as [k p x W|k p x sep y l W S L IH]; repeat constructor; cbn; eauto.
Qed.
Lemma items_real t k x items : items_written t k x items -> Forall real items.
Proof. assert (I : forall p x, item_written t p x -> p <> RNone) by (intros p y [i I|i d j I J D]; discriminate). intros W. induction W; repeat constructor; try (unfold real; cbn; eauto; fail); assumption. Qed.
