(* The rows of a page are its lines. *)
From Coq Require Import Floats.SpecFloat Sorting.Sorted Permutation Lia.
From Coq Require Import ZifyBool ZifyNat ZifyN.
From Verif Require Import PyBase PyBaseFacts LineModel PdfModel PdfSpec PdfProofs PdfProofs2.
Local Open Scope Z_scope.

(** * Groups of rows *)
Lemma sorted_app {A} (R : A -> A -> Prop) a b : StronglySorted R (a ++ b) -> StronglySorted R a /\ StronglySorted R b /\ forall x y, In x a -> In y b -> R x y.
Proof.
  induction a as [|x a IH]; cbn; intros S; [repeat split; auto; [constructor|intros ? ? []]|]. inversion S as [|? ? S' H]; subst. destruct (IH S') as (S1 & S2 & S3).
  apply Forall_app in H as [H1 H2]. rewrite Forall_forall in H2. repeat split; auto; [now constructor|]. intros z y [<-|I] Iy; auto.
Qed.
Lemma group_le gs g y : StronglySorted f_lt (flat_map members gs) -> In g gs -> In y (members g) -> f_le (fst g) y.
Proof.
  intros S Ig Iy. apply in_split in Ig as (g1 & g2 & ->). rewrite flat_map_app in S. apply sorted_app in S as (_ & S & _). cbn [flat_map] in S. apply sorted_app in S as (S & _).
  inversion S as [|? ? _ H]; subst. destruct Iy as [<-|I]; [apply le_refl|]. rewrite Forall_forall in H. left. auto.
Qed.
Lemma group_highest : forall gs g g' y, StronglySorted f_lt (flat_map members gs) -> In g gs -> In y (members g) -> In g' gs -> f_le (fst g') y -> f_le (fst g') (fst g).
Proof.
  induction gs as [|h gs IH]; intros g g' y S Ig Iy Ig' L; [destruct Ig|]. pose proof S as S0. cbn [flat_map] in S. apply sorted_app in S as (S1 & S2 & S3).
  destruct Ig as [<-|Ig], Ig' as [<-|Ig'].
  - apply le_refl.
  - exfalso. assert (f_lt y (fst g')). { apply S3; auto. apply in_flat_map. exists g'. split; auto. now left. } exact (lt_irrefl _ (lt_le_trans _ _ _ H L)).
  - left. apply S3; [now left|]. apply in_flat_map. exists g. split; auto. now left.
  - eauto.
Qed.
Lemma group_unique gs g g' : StronglySorted f_lt (flat_map members gs) -> In g gs -> In g' gs -> fst g = fst g' -> g = g'.
Proof.
  revert g g'. induction gs as [|h gs IH]; intros g g' S Ig Ig' E; [destruct Ig|]. cbn [flat_map] in S. apply sorted_app in S as (S1 & S2 & S3).
  assert (N : forall k, In k gs -> fst h <> fst k).
  { intros k Ik Ek. apply (lt_irrefl (fst h)). rewrite Ek at 2. apply S3; [now left|]. apply in_flat_map. exists k. split; auto. now left. }
  destruct Ig as [<-|Ig], Ig' as [<-|Ig']; auto.
  - destruct (N _ Ig' E).
  - destruct (N _ Ig (eq_sym E)).
Qed.
Lemma row_of_unique ys y y' b : row_of ys y b -> row_of ys y' b -> y = y'.
Proof. intros (I & L & M) (I' & L' & M'). apply le_antisym; auto. Qed.
Lemma row_of_group gs g b : StronglySorted f_lt (flat_map members gs) -> In g gs -> In (tb_y b) (flat_map members gs) ->
  row_of (rev (map fst gs)) (fst g) b <-> In (tb_y b) (members g).
Proof.
  intros S Ig Ib. assert (G : forall g, In g gs -> In (tb_y b) (members g) -> row_of (rev (map fst gs)) (fst g) b).
  { intros h Ih Iy. split; [|split].
    - rewrite <- in_rev. now apply in_map.
    - eapply group_le; eauto.
    - intros z Iz L. rewrite <- in_rev in Iz. apply in_map_iff in Iz as (g' & <- & Ig'). eapply group_highest; eauto. }
  split; [|auto]. intros R. apply in_flat_map in Ib as (g0 & I0 & Iy). rewrite <- (group_unique gs g0 g S I0 Ig); auto. eapply row_of_unique; eauto.
Qed.
Lemma spread_snoc l a b : spread (l ++ [b]) -> f_lt a b -> ~ close a b -> spread (l ++ [b; a]).
Proof.
  induction l as [|x l IH]; cbn; [auto|]. intros S L C. destruct l as [|x' l]; [cbn in *; tauto|]. destruct S as (S1 & S2 & S3). exact (conj S1 (conj S2 (IH S3 L C))).
Qed.
Lemma groups_spread gs : StronglySorted f_lt (flat_map members gs) -> not_close_next gs -> spread (rev (map fst gs)).
Proof.
  induction gs as [|g gs IH]; [cbn; auto|]. intros S N. cbn [flat_map] in S. apply sorted_app in S as (S1 & S2 & S3). destruct gs as [|h gs]; [cbn; auto|]. destruct N as [N1 N2].
  cbn [map rev]. rewrite <- app_assoc. cbn [app]. apply spread_snoc; auto. apply S3; [now left|]. apply in_flat_map. exists h. split; now left.
Qed.
Lemma pick_some d x : forall ys b, StronglySorted f_lt ys -> pick d x ys = Some b <-> exists y, In y ys /\ get2 d x y = Some b /\ forall z, In z ys -> f_lt y z -> get2 d x z = None.
Proof.
  assert (None_ : forall ys, pick d x ys = None <-> forall z, In z ys -> get2 d x z = None).
  { induction ys as [|y ys IH]; cbn; [intuition auto; contradiction|]. destruct (pick d x ys) as [v|].
    - split; [discriminate|]. intros H. assert (Some v = None) by (apply IH; auto). discriminate.
    - split; [|intros H; apply H; auto]. intros E z [<-|I]; auto. now apply IH. }
  induction ys as [|y ys IH]; intros b S; cbn; [split; [discriminate|intros (y & [] & _)]|]. inversion S as [|? ? S' H]; subst. rewrite Forall_forall in H. specialize (IH b S').
  destruct (pick d x ys) as [v|] eqn:E.
  - rewrite IH. split.
    + intros (z & I & G & M). exists z. split; auto. split; auto. intros w [<-|Iw] L; auto. destruct (lt_asym _ _ (H _ I) L).
    + intros (z & [<-|I] & G & M); [|exists z; auto]. exfalso. assert (pick d x ys = None) by (apply None_; intros w Iw; apply M; auto). congruence.
  - split.
    + intros G. exists y. split; auto. split; auto. intros z [<-|I] L; [destruct (lt_irrefl _ L)|]. exact (proj1 (None_ ys) E z I).
    + intros (z & [<-|I] & G & M); auto. rewrite (proj1 (None_ ys) E z I) in G. discriminate.
Qed.
Lemma find_first {A} (f : A -> bool) l b : find f l = Some b <-> f b = true /\ exists l1 l2, l = l1 ++ b :: l2 /\ Forall (fun c => f c = false) l1.
Proof.
  split.
  - intros E. split; [apply (find_some _ _ E)|]. induction l as [|a l IH]; cbn in E; [discriminate|]. destruct (f a) eqn:Ea.
    + injection E as <-. exists [], l. auto.
    + destruct (IH E) as (l1 & l2 & -> & F). exists (a :: l1), l2. auto.
  - intros (E & l1 & l2 & -> & F). induction F; cbn; [now rewrite E|]. now rewrite H.
Qed.
Lemma find_drawn bs b : Forall proper_box bs -> proper_box b -> find (at_place (tb_x b) (tb_y b)) bs = Some b <-> drawn_first bs b.
Proof.
  intros F Pb. rewrite find_first. unfold drawn_first. split.
  - intros (_ & l1 & l2 & -> & H). exists l1, l2. split; auto. apply Forall_app in F as [F1 _]. rewrite Forall_forall in *. intros c Ic [E1 E2]. specialize (H _ Ic).
    destruct (at_place (tb_x b) (tb_y b) c) eqn:E; [discriminate|]. assert (at_place (tb_x b) (tb_y b) c = true); [|congruence]. apply at_place_eq; auto; apply Pb.
  - intros (l1 & l2 & -> & H). split; [apply at_place_eq; auto; apply Pb|]. exists l1, l2. split; auto. apply Forall_app in F as [F1 _]. rewrite Forall_forall in *. intros c Ic. specialize (H _ Ic).
    destruct (at_place (tb_x b) (tb_y b) c) eqn:E; auto. apply at_place_eq in E as [E1 E2]; auto; try apply Pb. destruct H. auto.
Qed.

Lemma shown_pick d bs gs g b : collected d bs -> (forall y, In y (flat_map members gs) <-> In y (keys d)) -> StronglySorted f_lt (flat_map members gs) -> In g gs -> proper (tb_x b) ->
  pick d (tb_x b) (members g) = Some b <-> In b bs /\ shown bs (rev (map fst gs)) (fst g) b.
Proof.
  intros (D & F & Ck & Cg & Cc) K S Ig Px.
  assert (Iy : forall c, In c bs -> In (tb_y c) (flat_map members gs)) by (intros c Ic; rewrite K; apply Ck; eauto).
  assert (Sg : StronglySorted f_lt (members g)).
  { apply in_split in Ig as (g1 & g2 & ->). rewrite flat_map_app in S. apply sorted_app in S as (_ & S & _). cbn [flat_map] in S. now apply sorted_app in S as (S & _). }
  assert (Pm : forall y, In y (members g) -> proper y).
  { intros y I. assert (Ik : In y (keys d)) by (apply K; apply in_flat_map; eauto). destruct D as (D1 & _). unfold pkeys in D1. rewrite Forall_forall in D1.
    apply in_map_iff in Ik as (p & <- & Ip). auto. }
  rewrite Forall_forall in F. rewrite pick_some by auto. split.
  - intros (y & I & G & M). rewrite Cg in G by auto. pose proof (find_some _ _ G) as [Ib Ep]. apply at_place_eq in Ep as [_ ->]; auto. split; auto.
    split; [apply row_of_group; auto|]. split; [apply find_drawn; auto; now apply Forall_forall|]. intros c Ic R Ex. apply row_of_group in R; auto.
    destruct (le_total (tb_y c) (tb_y b)) as [|L]; auto; try apply F; auto. exfalso. specialize (M _ R L). rewrite Cg in M by (auto; apply F; auto).
    refine (eq_true_false_abs _ _ (find_none _ _ M c Ic)). apply at_place_eq; auto; apply F; auto.
  - intros (Ib & R & Dr & M). apply row_of_group in R; auto. exists (tb_y b). split; auto. split.
    + rewrite Cg by (auto; apply F; auto). apply find_drawn; auto. now apply Forall_forall.
    + intros z Iz L. rewrite Cg by auto. destruct (find (at_place (tb_x b) z) bs) as [c|] eqn:E; auto. exfalso. pose proof (find_some _ _ E) as [Ic Ep]. apply at_place_eq in Ep as [Ex ->]; auto.
      assert (Lc : f_le (tb_y c) (tb_y b)) by (apply M; auto; apply row_of_group; auto). exact (lt_irrefl _ (lt_le_trans _ _ _ L Lc)).
Qed.

(** * One line *)
Definition boxes (r : fdict textbox) : list textbox := flat_map (fun x => match fd_get x r with Some b => [b] | None => [] end) (f_sort (keys r)).
Lemma boxes_ok r : row_ok r -> (forall x b, proper x -> fd_get x r = Some b -> tb_x b = x) ->
  f_sort (keys r) = map tb_x (boxes r) /\ StronglySorted (fun a b => f_lt (tb_x a) (tb_x b)) (boxes r) /\
  (forall b, proper (tb_x b) -> In b (boxes r) <-> fd_get (tb_x b) r = Some b) /\ Forall (fun b => fd_get (tb_x b) r = Some b) (boxes r).
Proof.
  intros [P N] X. unfold boxes. set (xs := f_sort (keys r)).
  assert (Pk : Forall proper (keys r)). { unfold keys. rewrite Forall_forall. intros k I. apply in_map_iff in I as (p & <- & Ip). unfold pkeys in P. rewrite Forall_forall in P. auto. }
  assert (S : StronglySorted f_lt xs) by (now apply sort_sorted).
  assert (I : forall x, In x xs <-> In x (keys r)) by (intros x; split; apply Permutation_in; [symmetry|]; apply sort_perm).
  assert (G : forall x, In x xs -> exists b, fd_get x r = Some b /\ tb_x b = x). { intros x Ix. rewrite I in Ix. assert (Px : proper x) by (rewrite Forall_forall in Pk; auto).
    destruct (proj2 (get_some x r Px P) Ix) as (b & E). exists b. split; auto. }
  assert (M : xs = map tb_x (flat_map (fun x => match fd_get x r with Some b => [b] | None => [] end) xs)).
  { clear S I. induction xs as [|x xs IH]; auto. cbn. destruct (G x (or_introl eq_refl)) as (b & -> & E). cbn. rewrite E. f_equal. apply IH. intros y Iy. apply G. now right. }
  assert (E : forall b, In b (flat_map (fun x => match fd_get x r with Some b => [b] | None => [] end) xs) <-> exists x, In x xs /\ fd_get x r = Some b).
  { intros b. rewrite in_flat_map. split; intros (x & Ix & H); exists x; split; auto; destruct (fd_get x r); cbn in *; intuition congruence. }
  split; auto. split.
  - rewrite M in S. remember (flat_map _ xs) as l eqn:El. clear -S. induction l as [|a l IH]; [constructor|]. cbn in S. inversion S as [|? ? S' H]; subst. constructor; auto.
    rewrite Forall_forall in *. intros b Ib. apply H. now apply in_map.
  - split.
    + intros b Pb. rewrite E. split.
      * intros (x & Ix & Ex). destruct (G x Ix) as (b' & Eb & <-). congruence.
      * intros Eb. exists (tb_x b). split; auto. apply I. apply get_some; eauto.
    + rewrite Forall_forall. intros b Ib. apply E in Ib as (x & Ix & Ex). destruct (G x Ix) as (b' & Eb & <-). congruence.
Qed.

Lemma last_chr_snoc {A} (s : list A) c : last_chr (s ++ [c]) = Ok c.
Proof. unfold last_chr. now rewrite rev_app_distr. Qed.
Lemma line_loop_ok d rm : forall bs b parts p from, Forall (fun c => fd_get (tb_x c) d = Some c) bs -> Forall (fun c => tb_content c <> []) (b :: bs) -> p_content p = tb_content b ->
  line_loop d rm (map tb_x bs) (parts ++ [p]) (Some (reach b)) (tb_x b) (row_margin rm [b]) = Ok (mk_line (parts ++ p :: tl (row_parts from (b :: bs))) (row_margin rm (b :: bs))).
Proof.
  induction bs as [|c bs IH]; intros b parts p from G N Ep; [reflexivity|]. inversion G as [|? ? Gc G']; subst. inversion N as [|? ? Nb N']; subst.
  cbn [map line_loop]. unfold fd_item. rewrite Gc. cbn [bind].
  assert (M : row_margin rm (b :: c :: bs) = row_margin rm (c :: bs)).
  { unfold row_margin. cbn [rev]. destruct (rev bs); reflexivity. }
  assert (L : exists s k, tb_content b = s ++ [k]). { destruct (exists_last Nb) as (s & k & ->). eauto. } destruct L as (s & k & Eb).
  assert (T : (if f_ltb (reach b) (tb_x c) || str_eqb (tb_content c) (u8 "„")
     then match rev (parts ++ [p]) with
          | [] => Ok (parts ++ [p], tb_x b)
          | q :: _ => k <- last_chr (p_content q) ;; if negb (N.eqb k 32) then Ok ((parts ++ [p]) ++ [mk_part (f_sub (reach b) (tb_x b)) (u8 " ") false], reach b) else Ok (parts ++ [p], tb_x b)
          end
     else Ok (parts ++ [p], tb_x b)) =
    Ok (if spaced b c then ((parts ++ [p]) ++ [mk_part (f_sub (reach b) (tb_x b)) (u8 " ") false], reach b) else (parts ++ [p], tb_x b))).
  { unfold spaced, ends_in_space. rewrite Eb, !rev_app_distr. cbn [rev app]. destruct (f_ltb (reach b) (tb_x c) || str_eqb (tb_content c) (u8 "„")); cbn [andb]; auto.
    rewrite Ep, Eb, last_chr_snoc. cbn [bind]. now destruct (N.eqb k 32). }
  rewrite T. clear T. cbn [bind]. rewrite M. cbn [row_parts tl].
  destruct (spaced b c).
  - etransitivity; [exact (IH c ((parts ++ [p]) ++ [mk_part (f_sub (reach b) (tb_x b)) (u8 " ") false]) (mk_part (f_sub (tb_x c) (reach b)) (tb_content c) (tb_bold c)) (reach b) G' N' eq_refl)|].
    do 2 f_equal. rewrite <- !app_assoc. cbn [app]. destruct bs; reflexivity.
  - etransitivity; [exact (IH c (parts ++ [p]) (mk_part (f_sub (tb_x c) (tb_x b)) (tb_content c) (tb_bold c)) (tb_x b) G' N' eq_refl)|].
    do 2 f_equal. rewrite <- !app_assoc. cbn [app]. destruct bs; reflexivity.
Qed.
Lemma line_ok r rm : row_ok r -> (forall x b, proper x -> fd_get x r = Some b -> tb_x b = x /\ tb_content b <> []) ->
  convert_textbox_dict_to_line r rm = Ok (row_line rm (boxes r)).
Proof.
  intros R X. destruct (boxes_ok r R) as (E & S & I & F); [intros x b P G; now apply X|]. unfold convert_textbox_dict_to_line. fold (keys r). rewrite E.
  assert (N : Forall (fun c => tb_content c <> []) (boxes r)).
  { rewrite Forall_forall in *. intros b Ib. destruct R as [R1 R2]. specialize (F _ Ib). apply (X (tb_x b) b); auto.
    assert (Ik : In (tb_x b) (f_sort (keys r))) by (rewrite E; now apply in_map). apply (Permutation_in _ (Permutation_sym (sort_perm _))) in Ik.
    apply in_map_iff in Ik as (q & <- & Iq). unfold pkeys in R1. rewrite Forall_forall in R1. auto. }
  destruct (boxes r) as [|b bs]; [reflexivity|]. cbn [map line_loop]. inversion F as [|? ? Fb F']; subst. unfold fd_item. rewrite Fb. cbn [bind].
  etransitivity; [exact (line_loop_ok r rm bs b [] (mk_part (f_sub (tb_x b) f_zero) (tb_content b) (tb_bold b)) f_zero F' N eq_refl)|]. unfold row_line. cbn [app row_parts tl]. reflexivity.
Qed.

(** * The page *)
Lemma max_ok : forall l x, (exists y, In y (x :: l) /\ fold_left (fun m y => if f_ltb m y then y else m) l x = y) /\
  forall y, In y (x :: l) -> ~ f_lt (fold_left (fun m y => if f_ltb m y then y else m) l x) y.
Proof.
  induction l as [|a l IH]; intros x; cbn [fold_left].
  - split; [exists x; cbn; auto|]. intros y [<-|[]]. apply lt_irrefl.
  - destruct (f_ltb x a) eqn:E; [destruct (IH a) as [(y & I & Ey) M]|destruct (IH x) as [(y & I & Ey) M]].
    + split; [exists y; split; [now right|exact Ey]|]. intros z [<-|Iz]; [|now apply M]. intros L. apply (M a (or_introl eq_refl)). exact (lt_trans _ _ _ L E).
    + split; [exists y; split; auto; destruct I as [<-|I]; cbn; auto|]. intros z [<-|[<-|Iz]]; [apply M; now left| |apply M; now right].
      intros L. set (m := fold_left _ l x) in *. assert (Mx := M x (or_introl eq_refl)).
      (* m is x or above it *)
      assert (B : m = x \/ f_lt x m).
      { subst m. clear. revert x. induction l as [|b l IH]; intros x; cbn; auto. destruct (f_ltb x b) eqn:E; auto. destruct (IH b) as [->|H]; [now right|]. right. exact (lt_trans _ _ _ E H). }
      destruct B as [B|B]; [rewrite B in L; unfold f_lt in L; congruence|]. assert (f_lt x a) by exact (lt_trans _ _ _ B L). unfold f_lt in *. congruence.
Qed.
Lemma page_loop_ok d rm : forall rs prev, Forall (fun r => exists row, fd_get (fst r) d = Some row /\ convert_textbox_dict_to_line row rm = Ok (row_line rm (snd r))) rs ->
  page_loop d rm (map fst rs) prev = Ok (match rs with (y, _) :: _ => if gap prev y then [EMPTY_LINE] else [] | [] => [] end ++ rows_lines rm rs).
Proof.
  induction rs as [|[y bs] rs IH]; intros prev F; [reflexivity|]. inversion F as [|? ? (row & G & L) F']; subst. cbn [map fst page_loop]. unfold fd_item. cbn [fst snd] in *. rewrite G. cbn [bind].
  rewrite L. cbn [bind]. rewrite (IH y F'). cbn [bind rows_lines]. reflexivity.
Qed.

Theorem page_ok bs : bs <> [] -> Forall proper_box bs -> consistent bs ->
  exists rs m, page_rows bs rs /\ is_rightmost bs m /\ extract_single_page bs = Ok (rows_lines m rs).
Proof.
  intros NE F Con. unfold extract_single_page, sort_textboxes_into_dicts. destruct (collect_ok bs [] [] collect_nil F) as [(d & E & C)|[_ N]]; [|destruct (N Con)].
  cbn [app] in C. rewrite E. cbn [bind]. pose proof C as (D & _ & Ck & Cg & Cc). pose proof D as (D1 & D2 & D3).
  assert (Pk : Forall proper (keys d)). { unfold keys. rewrite Forall_forall. intros k I. apply in_map_iff in I as (p & <- & Ip). unfold pkeys in D1. rewrite Forall_forall in D1. auto. }
  fold (keys d). pose proof (sort_sorted _ Pk D2) as S. assert (I : forall x, In x (f_sort (keys d)) <-> In x (keys d)) by (intros x; split; apply Permutation_in; [symmetry|]; apply sort_perm).
  destruct (f_sort (keys d)) as [|l t] eqn:Es.
  { destruct bs as [|b bs]; [congruence|]. exfalso. apply (I (tb_y b)). apply Ck. exists b. split; auto. now left. }
  cbn [consolidate]. destruct (consolidate_ok t l d D S) as (d' & ms & gs0 & Ed & D' & Eq & Cl & Nc & Go & Gk & Gn & Gp).
  { rewrite Forall_forall in *. intros y Iy. apply Pk. now apply I. } { intros y Iy. now apply I. }
  rewrite Ed. cbn [bind]. set (gs := (l, ms) :: gs0) in *. rewrite Eq in S. pose proof D' as (D'1 & D'2 & D'3).
  assert (K : forall y, In y (flat_map members gs) <-> In y (keys d)) by (intros y; rewrite <- Eq; apply I).
  assert (Pg : forall g, In g gs -> proper (fst g)). { intros g Ig. rewrite Forall_forall in Pk. apply Pk. apply K. apply in_flat_map. exists g. split; auto. now left. }
  assert (Kd' : forall y, In y (keys d') <-> In y (map fst gs)).
  { intros y. split.
    - intros Iy. assert (Py : proper y). { apply in_map_iff in Iy as (p & <- & Ip). unfold pkeys in D'1. rewrite Forall_forall in D'1. auto. }
      apply get_some in Iy as (r & Gr); auto. destruct (in_dec (fun a b : pyfloat => ltac:(repeat decide equality)) y (map fst gs)) as [|N]; auto. exfalso.
      destruct (in_dec (fun a b : pyfloat => ltac:(repeat decide equality)) y (l :: t)) as [Il|Nl].
      + rewrite (Gn y Il N) in Gr. discriminate.
      + rewrite (Go y Py Nl) in Gr. apply Nl. apply I. apply get_some; eauto.
    - intros Iy. apply get_some; auto. apply in_map_iff in Iy as (g & <- & Ig). auto. }
  assert (Sb : StronglySorted f_lt (map fst gs)).
  { clear -S. induction gs as [|g gs IH]; [constructor|]. cbn [flat_map map] in *. apply sorted_app in S as (S1 & S2 & S3). constructor; auto. rewrite Forall_forall. intros y Iy.
    apply in_map_iff in Iy as (h & <- & Ih). apply S3; [now left|]. apply in_flat_map. exists h. split; auto. now left. }
  assert (Srt : f_sort (keys d') = map fst gs).
  { apply sort_is; auto. unfold keys. rewrite Forall_forall. intros k Ik. apply in_map_iff in Ik as (p & <- & Ip). unfold pkeys in D'1. rewrite Forall_forall in D'1. auto. }
  fold (keys d'). rewrite Srt.
  destruct bs as [|b0 bs0] eqn:Ebs; [congruence|]. rewrite <- Ebs in *. cbn [map f_max]. unfold f_max. replace (map (fun tb : textbox => f_add (tb_width tb) (tb_x tb)) bs) with
    (f_add (tb_width b0) (tb_x b0) :: map (fun tb : textbox => f_add (tb_width tb) (tb_x tb)) bs0) by now rewrite Ebs. cbn [bind].
  set (m := fold_left _ _ _). set (rs := rev (map (fun g => (fst g, match fd_get (fst g) d' with Some r => boxes r | None => [] end)) gs)). exists rs, m.
  assert (Frs : map fst rs = rev (map fst gs)) by (unfold rs; rewrite map_rev, map_map; reflexivity).
  assert (Row : forall g, In g gs -> exists r, fd_get (fst g) d' = Some r /\ row_ok r /\ forall x, proper x -> fd_get x r = pick d x (members g)).
  { intros g Ig. destruct (Gk (fst g)) as (r & Gr); [now apply in_map|]. exists r. split; auto. split; [exact (row_ok_get d' (fst g) r (Pg g Ig) D' Gr)|].
    intros x Px. rewrite <- (Gp g x Ig Px). unfold get2. now rewrite Gr. }
  assert (Sg : forall g, In g gs -> StronglySorted f_lt (members g)).
  { intros g Ig. clear -Ig S. apply in_split in Ig as (g1 & g2 & Eg). rewrite Eg, flat_map_app in S. apply sorted_app in S as (_ & S & _). cbn [flat_map] in S. now apply sorted_app in S as (S & _). }
  assert (Box : forall g x b, In g gs -> proper x -> pick d x (members g) = Some b -> tb_x b = x /\ tb_content b <> [] /\ In b bs).
  { intros g x b Ig Px Hp. apply pick_some in Hp as (y & Iy & Gy & _); auto. assert (Py : proper y). { rewrite Forall_forall in Pk. apply Pk. apply K. apply in_flat_map. eauto. }
    rewrite Cg in Gy by auto. pose proof (find_some _ _ Gy) as [Ib Ep]. rewrite Forall_forall in F. destruct (F _ Ib) as (_ & _ & Pc). apply at_place_eq in Ep as [-> _]; auto. }
  assert (Yg : forall b, In b bs -> exists g, In g gs /\ In (tb_y b) (members g)). { intros b Ib. apply in_flat_map. apply K. apply Ck. eauto. }
  split; [|split].
  - unfold page_rows. rewrite Frs. split; [now apply groups_spread|]. split; [|split].
    + intros y Iy. rewrite <- in_rev in Iy. apply Ck. apply K. apply in_map_iff in Iy as (g & <- & Ig). apply in_flat_map. exists g. split; auto. now left.
    + intros b Ib. destruct (Yg b Ib) as (g & Ig & Iy). exists (fst g). split; [apply row_of_group; auto; apply in_flat_map; eauto|]. destruct Iy as [<-|Iy]; auto. right.
      rewrite Forall_forall in Cl. specialize (Cl _ Ig). rewrite Forall_forall in Cl. auto.
    + rewrite Forall_forall. intros r Ir. unfold rs in Ir. rewrite <- in_rev in Ir. apply in_map_iff in Ir as (g & <- & Ig). cbn [fst snd]. destruct (Row g Ig) as (r & Gr & Rok & Rg). rewrite Gr.
      destruct (boxes_ok r Rok) as (B1 & B2 & B3 & B4). { intros x b Px Gx. rewrite Rg in Gx by auto. now apply (Box g x b). }
      split; auto. intros b. assert (Pb : In b bs -> proper (tb_x b)) by (rewrite Forall_forall in F; intros Ib; apply F; auto). split.
      * intros Ib. rewrite Forall_forall in B4. pose proof (B4 _ Ib) as Gb. assert (Px : proper (tb_x b)).
        { destruct Rok as [R1 R2]. assert (Ix : In (tb_x b) (f_sort (keys r))) by (rewrite B1; now apply in_map). apply (Permutation_in _ (Permutation_sym (sort_perm _))) in Ix.
          apply in_map_iff in Ix as (p & <- & Ip). unfold pkeys in R1. rewrite Forall_forall in R1. auto. }
        rewrite Rg in Gb by auto. apply (shown_pick d bs gs g b); auto.
      * intros [Ib Sh]. apply B3; auto. rewrite Rg by auto. apply (shown_pick d bs gs g b); auto.
  - split.
    + destruct (proj1 (max_ok (map (fun tb : textbox => f_add (tb_width tb) (tb_x tb)) bs0) (f_add (tb_width b0) (tb_x b0)))) as (y & Iy & Ey). fold m in Ey. rewrite Ey.
      change (In y (map (fun tb : textbox => f_add (tb_width tb) (tb_x tb)) (b0 :: bs0))) in Iy. rewrite <- Ebs in Iy. apply in_map_iff in Iy as (b & <- & Ib). eauto.
    + intros b Ib. apply (proj2 (max_ok (map (fun tb : textbox => f_add (tb_width tb) (tb_x tb)) bs0) (f_add (tb_width b0) (tb_x b0)))).
      change (In (f_add (tb_width b) (tb_x b)) (map (fun tb : textbox => f_add (tb_width tb) (tb_x tb)) (b0 :: bs0))). rewrite <- Ebs. now apply (in_map (fun tb => f_add (tb_width tb) (tb_x tb))).
  - rewrite <- Frs. rewrite page_loop_ok.
    + f_equal. destruct rs as [|[y r] rs']; reflexivity.
    + rewrite Forall_forall. intros r Ir. unfold rs in Ir. rewrite <- in_rev in Ir. apply in_map_iff in Ir as (g & <- & Ig). cbn [fst snd]. destruct (Row g Ig) as (r & Gr & Rok & Rg). rewrite Gr.
      exists r. split; auto. apply line_ok; auto. intros x b Px Gx. rewrite Rg in Gx by auto. destruct (Box g x b Ig Px Gx) as (? & ? & ?). auto.
Qed.
