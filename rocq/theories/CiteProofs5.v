(* Lists of identifiers say something. *)
From Coq Require Import Lia Permutation Sorted.
From Verif Require PdfProofs.
From Verif Require Import PyBase PyBaseFacts NumModel IdModel RefModel RefSpec TreeModel SemModel GramModel GramSpec GramProofs GramProofs2 PegSpec PegSpec2 PegProofs11 CiteSpec CiteProofs CiteProofs3.
Local Open Scope Z_scope.

Lemma follows_dec x y : {GramSpec.follows x y} + {~ GramSpec.follows x y}.
Proof.
  destruct (part_type_eqb (ad_type x) (ad_type y)) eqn:E; [|right; intros [H _]; rewrite H in E; revert E; now destruct (ad_type y)]. apply same_type in E.
  destruct (part_is_next (ad_type x)) as [f|] eqn:F; [|right; intros (_ & f & a & b & H & _); congruence].
  destruct (ad_data x) as [|a|a a'] eqn:A; [right; intros (_ & g & u & v & _ & H & _); congruence| |right; intros (_ & g & u & v & _ & H & _); congruence].
  destruct (ad_data y) as [|b|b b'] eqn:B; [right; intros (_ & g & u & v & _ & _ & H & _); congruence| |right; intros (_ & g & u & v & _ & _ & H & _); congruence].
  destruct (f a b) as [[|]|] eqn:R.
  - left. split; [exact E|]. exists f, a, b. auto.
  - right. intros (_ & g & u & v & G & H & K & L). congruence.
  - right. intros (_ & g & u & v & G & H & K & L). congruence.
Qed.
Lemma grouped_total l : exists g, grouped l g.
Proof.
  assert (H : forall n l, (length l <= n)%nat -> exists g, grouped l g); [|now apply (H (length l))].
  clear l. intros n. induction n as [|n IH]; intros [|x l] N; cbn [length] in N; try (exists []; constructor); [lia|].
  destruct l as [|y l]; [exists [x]; apply gr_one; [discriminate|constructor]|]. destruct (follows_dec x y) as [F|F].
  - destruct (IH l) as (g & G); [cbn [length] in N; lia|]. destruct F as (T & f & a & b & H & A & B & R). exists (merged x y a b :: g). apply gr_two; auto. split; [exact T|]. exists f, a, b. auto.
  - destruct (IH (y :: l)) as (g & G); [lia|]. exists (x :: g). apply gr_one; [|exact G]. now intros z t [= -> ->].
Qed.
Lemma grouped_starts l g : grouped l g -> NoDup (map ad_start l) -> NoDup (map ad_start g) /\ incl (map ad_start g) (map ad_start l).
Proof.
  intros G. induction G as [|x l out _ G IH|x y a b l out _ _ _ G IH]; cbn [map]; intros N.
  - split; [constructor|easy].
  - inversion N as [|? ? X N']; subst. destruct (IH N') as [D I]. split; [constructor; auto|]. intros z [<-|Z]; [now left|right; auto].
  - inversion N as [|? ? X N']; subst. inversion N' as [|? ? Y N'']; subst. destruct (IH N'') as [D I]. cbn [merged ad_start]. split.
    + constructor; [|exact D]. intros Z. apply I in Z. apply X. now right.
    + intros z [<-|Z]; [now left|right; right; auto].
Qed.
Lemma ordered_exists g : NoDup (map ad_start g) -> exists out, Permutation g out /\ in_text_order out.
Proof.
  induction g as [|x g IH]; cbn [map]; intros N; [exists []; split; [constructor|constructor]|]. inversion N as [|? ? X N']; subst. destruct (IH N') as (out & P & O). clear N N' IH.
  assert (H : forall z, In z out -> ad_start z <> ad_start x) by (intros z Z E; apply X; rewrite <- E; apply in_map; eapply Permutation_in; [symmetry; exact P|exact Z]).
  cut (exists out', Permutation (x :: out) out' /\ in_text_order out'); [intros (out' & P' & O'); exists out'; split; [|exact O']; rewrite P; exact P'|].
  clear P X g. induction O as [|y out O IH F]; [exists [x]; split; [reflexivity|repeat constructor]|].
  destruct (Z_lt_le_dec (ad_start x) (ad_start y)) as [L|L].
  - exists (x :: y :: out). split; [reflexivity|]. constructor; [now constructor|]. constructor; [exact L|]. revert F. apply Forall_impl. intros z. lia.
  - destruct IH as (out' & P & O'); [intros z Z; apply H; now right|]. exists (y :: out'). split; [rewrite perm_swap; now rewrite P|]. constructor; [exact O'|]. apply Forall_forall. intros z Z. apply (Permutation_in _ (Permutation_sym P)) in Z as [<-|Z]; [specialize (H y (or_introl eq_refl)); lia|]. rewrite Forall_forall in F. now apply F.
Qed.
Lemma size_pos x : 0 <= size x. Proof. unfold size. lia. Qed.
Lemma item_size t p x : item_written t p x -> 0 < size x.
Proof.
  intros [i I|i d j I J D]; (assert (N : i <> [] \/ one_text t i <> []) by (destruct t; cbn; first [right; discriminate|right; destruct i; discriminate])); destruct t; cbn; unfold size; try (destruct i; cbn [app length]; lia); rewrite ?app_length; cbn [length]; lia.
Qed.
Lemma items_starts_after t k x items : items_written t k x items -> NoDup (map ad_start items) /\ Forall (fun y => k <= ad_start y) items.
Proof.
  intros W. induction W as [k p x W|k p x sep y l W S W' [N F]]; cbn [map].
  - split; [constructor; [intros []|constructor]|]. constructor; [cbn; lia|constructor].
  - apply item_size in W. pose proof (size_pos sep). split.
    + constructor; [|exact N]. intros I. apply in_map_iff in I as (z & E & Z). rewrite Forall_forall in F. apply F in Z. cbn [ad_start] in E. lia.
    + constructor; [cbn; lia|]. revert F. apply Forall_impl. intros z. lia.
Qed.
Lemma filter_starts (f : addition -> bool) l : NoDup (map ad_start l) -> NoDup (map ad_start (filter f l ++ filter (fun x => negb (f x)) l)).
Proof.
  intros N. eapply Permutation_NoDup; [|exact N]. apply Permutation_map. clear N. induction l as [|x l IH]; [constructor|]. cbn [filter]. destruct (f x); cbn [negb app]; [now constructor|]. rewrite <- Permutation_middle. now constructor.
Qed.
Theorem joined_total t k x items : items_written t k x items -> exists out, joined items out.
Proof.
  intros W. destruct (items_starts_after _ _ _ _ W) as [N _]. destruct (grouped_total (filter is_one items ++ filter (fun x => negb (is_one x)) items)) as (g & G).
  destruct (grouped_starts _ _ G (filter_starts is_one items N)) as [N' _]. destruct (ordered_exists g N') as (out & P & O). exists out, g. auto.
Qed.
Theorem joined_unique items out out' : joined items out -> joined items out' -> out = out'.
Proof.
  intros (g & G & P & O) (g' & G' & P' & O'). rewrite (grouped_unique _ _ G _ G') in P. apply (PdfProofs.sorted_unique (fun x y => ad_start x < ad_start y)); auto; [intros a; lia|intros a b; lia|].
  intros x. split; intros X; (eapply Permutation_in; [|exact X]); [now rewrite <- P|now rewrite <- P'].
Qed.
(* how many references there are *)
Definition others (l : list addition) : nat := pred (length l).
Theorem cites_total n ls r s e : exists out, cites n ls r s e out /\ length out = S (list_sum (map others ls)).
Proof.
  revert n r s. induction ls as [|l ls IH]; intros n r s; [eexists; split; [constructor|reflexivity]|]. cbn [map list_sum fold_right].
  destruct l as [|x l]; [destruct (IH (S n) r s) as (out & C & E); exists out; split; [now constructor|exact E]|].
  revert x s. induction l as [|y l IHl]; intros x s.
  - destruct (IH (S n) (with_part r n (ad_data x)) s) as (out & C & E). exists out. split; [now constructor|exact E].
  - destruct (IHl y (ad_start y)) as (out & C & E). eexists. split; [apply ci_more; exact C|]. cbn [length]. rewrite E. reflexivity.
Qed.
Theorem cites_unique n ls r s e out : cites n ls r s e out -> forall out', cites n ls r s e out' -> out = out'.
Proof.
  intros C. induction C as [n r s e|n ls r s e out C IH|n x ls r s e out C IH|n x y l ls r s e out C IH]; intros out' D; inversion D; subst; auto. f_equal. now apply IH.
Qed.
