(* Order of floats, dictionaries and sorting. *)
From Coq Require Import Floats.SpecFloat Sorting.Sorted Permutation Lia.
From Coq Require Import ZifyBool ZifyNat ZifyN.
From Verif Require Import PyBase LineModel PdfModel PdfSpec.
Local Open Scope Z_scope.

(** * Order of floats *)
Lemma lt_irrefl a : ~ f_lt a a.
Proof.
  unfold f_lt, f_ltb, SFltb. destruct a as [s|s| |s m e]; cbn; try (destruct s; discriminate); try discriminate.
  rewrite Z.compare_refl. destruct s; rewrite ?Pos.compare_cont_refl; cbn; try discriminate.
Qed.
Lemma pcompare_cont a b c : Pos.compare_cont Eq a b = c <-> Pos.compare a b = c.
Proof. reflexivity. Qed.
Lemma lt_trans a b c : f_lt a b -> f_lt b c -> f_lt a c.
Proof.
  unfold f_lt, f_ltb, SFltb.
  destruct a as [s|s| |s m e], b as [s'|s'| |s' m' e'], c as [s''|s''| |s'' m'' e'']; cbn; try (destruct s; discriminate); try discriminate;
    try (destruct s; try discriminate); try (destruct s'; try discriminate); try (destruct s''; try discriminate); try reflexivity; intros H1 H2;
    change (Pos.compare_cont Eq) with Pos.compare in *;
    destruct (Z.compare_spec e e') as [E|E|E]; try discriminate; destruct (Z.compare_spec e' e'') as [E'|E'|E']; try discriminate;
    destruct (Z.compare_spec e e'') as [E''|E''|E'']; try lia; try reflexivity;
    destruct (Pos.compare_spec m m') as [M|M|M]; try discriminate; destruct (Pos.compare_spec m' m'') as [M'|M'|M']; try discriminate;
    destruct (Pos.compare_spec m m'') as [M''|M''|M'']; try lia; try reflexivity.
Qed.
Lemma lt_total a b : proper a -> proper b -> f_lt a b \/ a = b \/ f_lt b a.
Proof.
  unfold proper, f_lt, f_ltb, SFltb. intros [N1 Z1] [N2 Z2].
  destruct a as [s|s| |s m e], b as [s'|s'| |s' m' e']; cbn; try congruence; try (destruct s; try congruence); try (destruct s'; try congruence); auto;
    change (Pos.compare_cont Eq) with Pos.compare in *; rewrite (Z.compare_antisym e e'), (Pos.compare_antisym m m');
    destruct (Z.compare_spec e e') as [E|E|E]; cbn; auto; subst; destruct (Pos.compare_spec m m') as [M|M|M]; cbn; subst; auto.
Qed.
Lemma eqb_eq a b : proper a -> proper b -> f_eqb a b = true <-> a = b.
Proof.
  unfold proper, f_eqb, SFeqb. intros [N1 Z1] [N2 Z2]. split.
  - destruct a as [s|s| |s m e], b as [s'|s'| |s' m' e']; cbn; try congruence; try (destruct s; try congruence); try (destruct s'; try congruence);
    change (Pos.compare_cont Eq) with Pos.compare in *;
    destruct (Z.compare_spec e e') as [E|E|E]; try discriminate; subst; destruct (Pos.compare_spec m m') as [M|M|M]; cbn; subst; try discriminate; auto.
  - intros <-. destruct a as [s|s| |s m e]; try congruence; cbn; try (destruct s; reflexivity).
    change (Pos.compare_cont Eq) with Pos.compare. rewrite Z.compare_refl, Pos.compare_refl. now destruct s.
Qed.
Lemma lt_asym a b : f_lt a b -> ~ f_lt b a.
Proof. intros H H'. exact (lt_irrefl a (lt_trans _ _ _ H H')). Qed.
Lemma le_trans a b c : f_le a b -> f_le b c -> f_le a c.
Proof. intros [H|<-] [H'|<-]; unfold f_le; auto. left. exact (lt_trans _ _ _ H H'). Qed.
Lemma le_lt_trans a b c : f_le a b -> f_lt b c -> f_lt a c.
Proof. intros [H|<-] H'; auto. exact (lt_trans _ _ _ H H'). Qed.
Lemma lt_le_trans a b c : f_lt a b -> f_le b c -> f_lt a c.
Proof. intros H [H'|<-]; auto. exact (lt_trans _ _ _ H H'). Qed.
Lemma le_antisym a b : f_le a b -> f_le b a -> a = b.
Proof. intros [H|H] [H'|H']; auto. destruct (lt_asym _ _ H H'). Qed.
Lemma le_total a b : proper a -> proper b -> f_le a b \/ f_lt b a.
Proof. intros P Q. destruct (lt_total a b P Q) as [H|[H|H]]; unfold f_le; auto. Qed.
Lemma le_refl a : f_le a a.
Proof. now right. Qed.
Lemma not_lt_le a b : proper a -> proper b -> f_ltb a b = false -> f_le b a.
Proof. intros P Q E. destruct (le_total b a Q P) as [H|H]; auto. unfold f_lt in H. congruence. Qed.

(** * Sorting *)
Lemma insert_perm x l : Permutation (x :: l) (f_insert x l).
Proof. induction l as [|y l IH]; cbn; [reflexivity|]. destruct (f_ltb x y); [reflexivity|]. rewrite perm_swap. now constructor. Qed.
Lemma sort_perm_gen l : forall a, Permutation (l ++ a) (fold_left (fun a x => f_insert x a) l a).
Proof. induction l as [|x l IH]; intros a; cbn; [reflexivity|]. rewrite <- IH. rewrite Permutation_middle. now rewrite <- insert_perm. Qed.
Lemma sort_perm l : Permutation l (f_sort l).
Proof. unfold f_sort. rewrite <- sort_perm_gen. now rewrite app_nil_r. Qed.
Lemma insert_sorted x l : proper x -> Forall proper l -> ~ In x l -> StronglySorted f_lt l -> StronglySorted f_lt (f_insert x l).
Proof.
  intros P. induction l as [|y l IH]; intros F N S; cbn; [repeat constructor|]. inversion F as [|? ? Py Fl]; subst. inversion S as [|? ? Sl Hy]; subst.
  destruct (f_ltb x y) eqn:E.
  - constructor; [exact S|]. constructor; [exact E|]. eapply Forall_impl; [|exact Hy]. intros z Hz. exact (lt_trans _ _ _ E Hz).
  - constructor; [apply IH; auto; intros I; apply N; now right|]. apply (Permutation_Forall (insert_perm x l)). constructor; [|exact Hy].
    destruct (lt_total x y P Py) as [H|[H|H]]; [unfold f_lt in H; congruence|subst; destruct N; now left|exact H].
Qed.
Lemma sort_sorted l : Forall proper l -> NoDup l -> StronglySorted f_lt (f_sort l).
Proof.
  unfold f_sort. assert (G : forall l a, Forall proper l -> Forall proper a -> NoDup (l ++ a) -> StronglySorted f_lt a -> StronglySorted f_lt (fold_left (fun a x => f_insert x a) l a)).
  { clear l. induction l as [|x l IH]; intros a F Fa N S; cbn; [exact S|]. inversion F; subst. cbn in N. inversion N; subst. apply IH; auto.
    - apply (Permutation_Forall (insert_perm x a)). now constructor.
    - rewrite <- (insert_perm x a). rewrite <- Permutation_middle. now constructor.
    - apply insert_sorted; auto. intros I. apply H3. apply in_or_app. now right. }
  intros F N. apply G; auto; try constructor. now rewrite app_nil_r.
Qed.
Lemma sorted_unique {A} (R : A -> A -> Prop) : (forall a, ~ R a a) -> (forall a b, R a b -> ~ R b a) ->
  forall l l', StronglySorted R l -> StronglySorted R l' -> (forall x, In x l <-> In x l') -> l = l'.
Proof.
  intros Irr Asym. induction l as [|a l IH]; intros [|b l'] S S' E; auto; try (exfalso; apply (E b); now left); try (exfalso; apply (E a); now left).
  inversion S as [|? ? Sl Ha]; subst. inversion S' as [|? ? Sl' Hb]; subst. rewrite Forall_forall in Ha, Hb.
  assert (a = b).
  { destruct (proj1 (E a) (or_introl eq_refl)) as [|I]; [auto|]. destruct (proj2 (E b) (or_introl eq_refl)) as [|I']; [auto|].
    exfalso. exact (Asym _ _ (Ha _ I') (Hb _ I)). }
  subst b. f_equal. apply IH; auto. intros x. split; intros I.
  - destruct (proj1 (E x) (or_intror I)) as [<-|]; auto. destruct (Irr _ (Ha _ I)).
  - destruct (proj2 (E x) (or_intror I)) as [<-|]; auto. destruct (Irr _ (Hb _ I)).
Qed.
Lemma sort_is l s : Forall proper l -> NoDup l -> StronglySorted f_lt s -> (forall x, In x l <-> In x s) -> f_sort l = s.
Proof.
  intros F N S E. apply (sorted_unique f_lt lt_irrefl (fun a b => lt_asym a b)); auto using sort_sorted.
  intros x. rewrite <- E. split; apply Permutation_in; [symmetry|]; apply sort_perm.
Qed.

(** * Dictionaries *)
Definition pkeys {A} (d : fdict A) : Prop := Forall (fun p => proper (fst p)) d.
Definition keys {A} (d : fdict A) : list pyfloat := map fst d.
Lemma eqb_refl k : proper k -> f_eqb k k = true.
Proof. intros P. now apply eqb_eq. Qed.
Lemma eqb_neq a b : proper a -> proper b -> a <> b -> f_eqb a b = false.
Proof. intros P Q N. destruct (f_eqb a b) eqn:E; auto. apply eqb_eq in E; auto. contradiction. Qed.
Ltac keq k k' := let E := fresh "E" in destruct (f_eqb k k') eqn:E; [apply eqb_eq in E; auto; [subst]|].
Lemma get_set_same {A} k (v : A) d : proper k -> pkeys d -> fd_get k (fd_set k v d) = Some v.
Proof.
  intros P. induction d as [|[k' v'] d IH]; intros F; cbn; [now rewrite eqb_refl|]. inversion F; subst. cbn in *.
  destruct (f_eqb k k') eqn:E; cbn; rewrite E; auto.
Qed.
Lemma get_set_other {A} k k' (v : A) d : proper k -> proper k' -> k <> k' -> pkeys d -> fd_get k' (fd_set k v d) = fd_get k' d.
Proof.
  intros P Q N. induction d as [|[j w] d IH]; intros F; cbn; [now rewrite eqb_neq by auto|]. inversion F; subst. cbn in *.
  destruct (f_eqb k j) eqn:E; cbn.
  - apply eqb_eq in E; auto. subst j. now rewrite eqb_neq by auto.
  - destruct (f_eqb k' j); auto.
Qed.
Lemma get_none {A} k (d : fdict A) : proper k -> pkeys d -> fd_get k d = None <-> ~ In k (keys d).
Proof.
  intros P. induction d as [|[j w] d IH]; intros F; cbn; [tauto|]. inversion F; subst. cbn in *. destruct (f_eqb k j) eqn:E.
  - apply eqb_eq in E; auto. subst. split; [discriminate|]. intros N. destruct N. now left.
  - rewrite IH by auto. split; [|tauto]. intros N [->|I]; [|tauto]. rewrite eqb_refl in E by auto. discriminate.
Qed.
Lemma get_some {A} k (d : fdict A) : proper k -> pkeys d -> (exists v, fd_get k d = Some v) <-> In k (keys d).
Proof.
  intros P F. pose proof (get_none k d P F) as G. destruct (fd_get k d) as [v|].
  - split; [|eauto]. intros _. destruct (in_dec (fun a b : pyfloat => ltac:(repeat decide equality)) k (keys d)) as [|N]; auto. apply G in N. discriminate.
  - split; [intros [v D]; discriminate|]. intros I. destruct (proj1 G eq_refl I).
Qed.
Lemma get_in {A} k (d : fdict A) v : proper k -> pkeys d -> fd_get k d = Some v -> In (k, v) d.
Proof.
  intros P. induction d as [|[j w] d IH]; intros F; cbn; [discriminate|]. inversion F; subst. cbn in *. destruct (f_eqb k j) eqn:E.
  - apply eqb_eq in E; auto. intros [= ->]. subst. now left.
  - auto.
Qed.
Lemma set_keys {A} k (v : A) d : proper k -> pkeys d -> forall x, In x (keys (fd_set k v d)) <-> x = k \/ In x (keys d).
Proof.
  intros P. induction d as [|[j w] d IH]; intros F x; cbn; [intuition congruence|]. inversion F; subst. cbn in *. destruct (f_eqb k j) eqn:E; cbn.
  - apply eqb_eq in E; auto. subst. intuition congruence.
  - rewrite IH by auto. tauto.
Qed.
Lemma set_pkeys {A} k (v : A) d : proper k -> pkeys d -> pkeys (fd_set k v d).
Proof.
  intros P. induction d as [|[j w] d IH]; intros F; cbn; [repeat constructor; apply P|]. inversion F; subst. destruct (f_eqb k j); constructor; auto. now apply IH.
Qed.
Lemma set_nodup {A} k (v : A) d : proper k -> pkeys d -> NoDup (keys d) -> NoDup (keys (fd_set k v d)).
Proof.
  intros P. induction d as [|[j w] d IH]; intros F N; cbn; [repeat constructor; auto|]. inversion F; subst. cbn in *. inversion N; subst. destruct (f_eqb k j) eqn:E; cbn; [auto|].
  constructor; [|now apply IH]. intros I. apply (set_keys k v d P H2) in I as [->|I]; [|contradiction]. rewrite eqb_refl in E by auto. discriminate.
Qed.
Lemma set_all {A} (Q : A -> Prop) k v d : Q v -> Forall (fun p => Q (snd p)) d -> Forall (fun p => Q (snd p)) (fd_set k v d).
Proof.
  intros H. induction d as [|[j w] d IH]; intros F; cbn; [repeat constructor; auto|]. inversion F; subst. destruct (f_eqb k j); constructor; auto.
Qed.
Lemma del_same {A} k (d : fdict A) : proper k -> pkeys d -> fd_get k (fd_del k d) = None.
Proof.
  intros P. induction d as [|[j w] d IH]; intros F; cbn; auto. inversion F; subst. cbn in *. destruct (f_eqb k j) eqn:E; cbn; [auto|]. rewrite E. auto.
Qed.
Lemma del_other {A} k k' (d : fdict A) : proper k -> proper k' -> k <> k' -> pkeys d -> fd_get k' (fd_del k d) = fd_get k' d.
Proof.
  intros P Q N. induction d as [|[j w] d IH]; intros F; cbn; auto. inversion F; subst. cbn in *. destruct (f_eqb k j) eqn:E; cbn.
  - apply eqb_eq in E; auto. subst. rewrite (eqb_neq k' j) by auto. auto.
  - destruct (f_eqb k' j); auto.
Qed.
Lemma del_pkeys {A} k (d : fdict A) : pkeys d -> pkeys (fd_del k d).
Proof. unfold pkeys, fd_del. rewrite !Forall_forall. intros F p I. apply filter_In in I as [I _]. auto. Qed.
Lemma del_all {A} (Q : A -> Prop) k d : Forall (fun p => Q (snd p)) d -> Forall (fun p => Q (snd p)) (fd_del k d).
Proof. unfold fd_del. rewrite !Forall_forall. intros F p I. apply filter_In in I as [I _]. auto. Qed.
Lemma del_nodup {A} k (d : fdict A) : NoDup (keys d) -> NoDup (keys (fd_del k d)).
Proof.
  unfold keys, fd_del. induction d as [|[j w] d IH]; cbn; intros N; [constructor|]. inversion N; subst. destruct (f_eqb k j); cbn; [auto|].
  constructor; [|auto]. intros I. apply H1. apply in_map_iff in I as ([j' w'] & <- & I). apply filter_In in I as [I _]. apply in_map_iff. exists (j', w'). auto.
Qed.
Lemma update_spec {A} (e : fdict A) : pkeys e -> NoDup (keys e) -> forall d, pkeys d -> NoDup (keys d) ->
  pkeys (fd_update d e) /\ NoDup (keys (fd_update d e)) /\
  forall k, proper k -> fd_get k (fd_update d e) = match fd_get k e with Some v => Some v | None => fd_get k d end.
Proof.
  unfold fd_update. induction e as [|[j w] e IH]; intros Fe Ne d F N; cbn [fold_left fst snd]; [repeat split; auto|].
  inversion Fe; subst. cbn in Ne. inversion Ne; subst. cbn in *.
  destruct (IH H2 H4 (fd_set j w d) (set_pkeys _ _ _ H1 F) (set_nodup _ _ _ H1 F N)) as (P1 & P2 & P3). split; [|split]; auto.
  intros k Pk. rewrite P3 by auto. destruct (f_eqb k j) eqn:E.
  - apply eqb_eq in E; auto. subst. rewrite (proj2 (get_none j e H1 H2)) by auto. now rewrite get_set_same.
  - destruct (fd_get k e); auto. apply get_set_other; auto. intros ->. rewrite eqb_refl in E; auto. discriminate.
Qed.
