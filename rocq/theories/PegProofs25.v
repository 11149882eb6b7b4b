(* A reference, read forwards. *)
From Verif Require Import PyBase PyBaseFacts UnicodeAlnum NumModel IdModel LineModel DateModel RefModel TreeModel StructModel SemModel GramModel GramSpec PegModel PegSpec PegSpec2 PegProofs PegProofs2 PegProofs22 PegProofs23 PegProofs24.
From Coq Require Import Lia.
Local Open Scope Z_scope.

Section Total.
Variable total : Z.
Notation part_parser := (part_parser total).

(** * Parts with a space before them *)

Lemma part_space t s : part_parser t (u8 " " ++ s) = part_parser t s.
Proof. rewrite part_parser_eq. reflexivity. Qed.
(* no part begins here *)
Definition partless (s : pystr) : Prop := forall t, part_parser t s = None.
Definition silent (s : pystr) : Prop := partless s /\ ~ is_dash (lc s) /\ gap s.
Lemma level_gap k p w s : level_written k p w -> gap s -> gap (w ++ s).
Proof. intros [[_ ->]|(t & x & _ & _ & ->)] G; [exact G|now left]. Qed.
Lemma part_lc t p x s : part_written t p x -> ~ is_dash (lc (x ++ s)).
Proof.
  intros (y & e & W & _ & ->) D. pose proof (item_class t p y ((u8 " " ++ unit_text t ++ e) ++ s) W) as C. rewrite app_assoc in C.
  apply dash_chr in D as D1. destruct D1 as (_ & D1 & D2 & _). destruct t; try congruence. rewrite C in D. unfold is_dash in D. cbn in D. intuition discriminate.
Qed.
Lemma level_dash k p w s : level_written k p w -> ~ is_dash (lc s) -> ~ is_dash (lc (w ++ s)).
Proof. intros [[_ ->]|(t & x & _ & W & ->)] G; [exact G|]. change ((u8 " " ++ x) ++ s) with (32%N :: x ++ s). rewrite lc_space by reflexivity. eapply part_lc. exact W. Qed.
Definition says_level (k : nat) (p : rpart) (l : list g_part) : Prop :=
  (p = RNone /\ l = []) \/ exists t g, level_of t = k /\ l = [g] /\ says_part t p g.
(* not a part of this kind, nor of a later level *)
Lemma passed t p q w s : (forall t', level_of t' = q -> passes t t') -> level_written q p w -> part_parser t s = None -> part_parser t (w ++ s) = None.
Proof.
  intros P [[_ ->]|(t' & x & L & W & ->)] S; [exact S|]. change ((u8 " " ++ x) ++ s) with (u8 " " ++ x ++ s). rewrite part_space. exact (part_passed total _ _ _ _ _ (P _ L) W).
Qed.
Lemma article_passes q : (2 <= q)%nat -> forall t, level_of t = q -> passes PArticle t.
Proof. intros H t L. destruct t; cbn in *; try exact I. lia. Qed.
Lemma paragraph_passes q : (3 <= q)%nat -> forall t, level_of t = q -> passes PParagraph t.
Proof. intros H t L. destruct t; cbn in *; try exact I. lia. Qed.
Lemma point_passes t : level_of t = 3%nat -> forall t', level_of t' = 4%nat -> passes t t'.
Proof. intros H t' L. destruct t; cbn in H; try discriminate H; destruct t'; cbn in *; try discriminate L; exact I. Qed.

(** * Levels *)

Lemma subpoint_yes p w s : level_written 4 p w -> w <> [] -> silent s -> exists l, ref_with_subpoint total (w ++ s) = Some (l, s) /\ says_level 4 p l.
Proof.
  intros [[_ ->]|(t & x & L & W & ->)] N (S & D & G); [contradiction|]. change ((u8 " " ++ x) ++ s) with (u8 " " ++ x ++ s).
  destruct (part_reads total t p x s W G D) as (g & P & Y). exists [g]. split; [|right; exists t, g; auto].
  unfold ref_with_subpoint. apply (map_yes (fun x => [x])). unfold g_any_subpoint. destruct t; try discriminate L.
  - apply or_yes. change (part_parser PAlphabeticSubpoint (u8 " " ++ x ++ s) = Some (g, s)). now rewrite part_space.
  - rewrite or_no; [change (part_parser PNumericSubpoint (u8 " " ++ x ++ s) = Some (g, s)); now rewrite part_space|].
    change (part_parser PAlphabeticSubpoint (u8 " " ++ x ++ s) = None). rewrite part_space. refine (part_passed total _ _ _ _ _ _ W); exact I.
Qed.
Lemma subpoint_no s : partless s -> ref_with_subpoint total s = None.
Proof.
  intros S. apply (map_no (fun x => [x])). unfold g_any_subpoint. rewrite or_no; [exact (S PNumericSubpoint)|exact (S PAlphabeticSubpoint)].
Qed.
Lemma nonempty_level k p w : level_written k p w -> w = [] \/ w <> [].
Proof. destruct w; [now left|right; discriminate]. Qed.
Lemma empty_level k p : level_written k p [] -> p = RNone.
Proof. intros [[-> _]|(t & x & _ & _ & H)]; [reflexivity|discriminate]. Qed.
Lemma subpoint_opt p w s : level_written 4 p w -> silent s -> exists o, p_opt (ref_with_subpoint total) (w ++ s) = Some (o, s) /\ says_level 4 p (parts_of o).
Proof.
  intros W S. destruct (nonempty_level _ _ _ W) as [->|N].
  - apply empty_level in W as ->. exists None. split; [apply opt_no; apply subpoint_no, S|left; auto].
  - destruct (subpoint_yes p w s W N S) as (l & R & Y). exists (Some l). split; [now apply opt_yes|exact Y].
Qed.
Lemma point_no s : part_parser PAlphabeticPoint s = None -> part_parser PNumericPoint s = None -> ref_with_point total s = None.
Proof. intros A B. apply bind_no. unfold g_any_point. rewrite or_no; assumption. Qed.
Lemma point_yes q w p w' s : level_written 3 q w -> w <> [] -> level_written 4 p w' -> silent s ->
  exists l l', ref_with_point total (w ++ w' ++ s) = Some (l ++ l', s) /\ says_level 3 q l /\ says_level 4 p l'.
Proof.
  intros [[_ ->]|(t & x & L & W & ->)] N W' S; [contradiction|]. pose proof S as (_ & D & G). change ((u8 " " ++ x) ++ w' ++ s) with (u8 " " ++ x ++ w' ++ s).
  destruct (part_reads total t q x (w' ++ s) W (level_gap _ _ _ _ W' G) (level_dash _ _ _ _ W' D)) as (g & P & Y). destruct (subpoint_opt p w' s W' S) as (o & O & YO).
  exists [g], (parts_of o). split; [|split; [right; exists t, g; auto|exact YO]]. unfold ref_with_point.
  assert (A : g_any_point total (u8 " " ++ x ++ w' ++ s) = Some (g, w' ++ s)).
  { unfold g_any_point. destruct t; try discriminate L.
    - apply or_yes. change (part_parser PAlphabeticPoint (u8 " " ++ x ++ w' ++ s) = Some (g, w' ++ s)). now rewrite part_space.
    - rewrite or_no; [change (part_parser PNumericPoint (u8 " " ++ x ++ w' ++ s) = Some (g, w' ++ s)); now rewrite part_space|].
      change (part_parser PAlphabeticPoint (u8 " " ++ x ++ w' ++ s) = None). rewrite part_space. refine (part_passed total _ _ _ _ _ _ W); exact I. }
  now rewrite (bind_yes _ _ _ _ _ A), (bind_yes _ _ _ _ _ O).
Qed.
Lemma point_opt q w p w' s : level_written 3 q w -> level_written 4 p w' -> (w' = [] \/ w <> []) -> silent s ->
  exists o l l', p_opt (ref_with_point total) (w ++ w' ++ s) = Some (o, s) /\ parts_of o = l ++ l' /\ says_level 3 q l /\ says_level 4 p l'.
Proof.
  intros W W' N S. destruct (nonempty_level _ _ _ W) as [->|M].
  - destruct N as [->|N]; [|contradiction]. apply empty_level in W as ->. apply empty_level in W' as ->. exists None, [], []. split; [apply opt_no; apply point_no; apply S|]. split; [reflexivity|]. split; left; auto.
  - destruct (point_yes q w p w' s W M W' S) as (l & l' & R & Y & Y'). exists (Some (l ++ l')), l, l'. split; [now apply opt_yes|]. auto.
Qed.
Lemma paragraph_no q w p w' s : level_written 3 q w -> level_written 4 p w' -> silent s -> part_parser PParagraph (w ++ w' ++ s) = None.
Proof.
  intros W W' (S & _). apply (passed PParagraph q 3 w); [apply paragraph_passes; lia|exact W|]. apply (passed PParagraph p 4 w'); [apply paragraph_passes; lia|exact W'|]. apply S.
Qed.
Lemma paragraph_yes b wb q w p w' s : level_written 2 b wb -> wb <> [] -> level_written 3 q w -> level_written 4 p w' -> (w' = [] \/ w <> []) -> silent s ->
  exists l1 l2 l3, ref_with_paragraph total (wb ++ w ++ w' ++ s) = Some (l1 ++ l2 ++ l3, s) /\ says_level 2 b l1 /\ says_level 3 q l2 /\ says_level 4 p l3.
Proof.
  intros [[_ ->]|(t & x & L & W & ->)] N W2 W3 M S; [contradiction|]. pose proof S as (_ & D & G). change ((u8 " " ++ x) ++ w ++ w' ++ s) with (u8 " " ++ x ++ w ++ w' ++ s).
  destruct (part_reads total t b x (w ++ w' ++ s) W (level_gap _ _ _ _ W2 (level_gap _ _ _ _ W3 G)) (level_dash _ _ _ _ W2 (level_dash _ _ _ _ W3 D))) as (g & P & Y).
  destruct (point_opt q w p w' s W2 W3 M S) as (o & l & l' & O & E & Y1 & Y2). exists [g], l, l'. split; [|split; [right; exists t, g; auto|auto]].
  unfold ref_with_paragraph. destruct t; try discriminate L. rewrite <- part_space in P. now rewrite (bind_yes _ _ _ _ _ P), (bind_yes _ _ _ _ _ O), E.
Qed.
Lemma article_no b wb q w p w' s : level_written 2 b wb -> level_written 3 q w -> level_written 4 p w' -> silent s -> part_parser PArticle (wb ++ w ++ w' ++ s) = None.
Proof.
  intros W1 W2 W3 (S & _). apply (passed PArticle b 2 wb); [apply article_passes; lia|exact W1|]. apply (passed PArticle q 3 w); [apply article_passes; lia|exact W2|].
  apply (passed PArticle p 4 w'); [apply article_passes; lia|exact W3|]. apply S.
Qed.

(** * The reference *)

Definition any_reference : parser (list g_part) :=
  ref_with_article_with_paragraph total <|> ref_with_article_no_paragraph total <|> ref_with_paragraph total <|> ref_with_point total <|> ref_with_subpoint total.
Lemma or_step {A} (p q : parser A) s x : p s = None -> q s = x -> (p <|> q) s = x.
Proof. intros H <-. now apply or_no. Qed.
Lemma any_reads a wa b wb q w p w' s : level_written 1 a wa -> level_written 2 b wb -> level_written 3 q w -> level_written 4 p w' ->
  wa ++ wb ++ w ++ w' <> [] -> (w' = [] \/ w <> [] \/ (wa = [] /\ wb = [])) -> silent s ->
  exists l0 l1 l2 l3, any_reference (wa ++ wb ++ w ++ w' ++ s) = Some (l0 ++ l1 ++ l2 ++ l3, s) /\ says_level 1 a l0 /\ says_level 2 b l1 /\ says_level 3 q l2 /\ says_level 4 p l3.
Proof.
  intros W0 W1 W2 W3 NE M S. pose proof S as (SS & D & G). unfold any_reference. destruct (nonempty_level _ _ _ W0) as [->|N0].
  - apply empty_level in W0 as ->. cbn [app] in *. pose proof (article_no b wb q w p w' s W1 W2 W3 S) as NA. destruct (nonempty_level _ _ _ W1) as [->|N1].
    + apply empty_level in W1 as ->. cbn [app] in *. pose proof (paragraph_no q w p w' s W2 W3 S) as NP. destruct (nonempty_level _ _ _ W2) as [->|N2].
      * apply empty_level in W2 as ->. cbn [app] in *. destruct (subpoint_yes p w' s W3 NE S) as (l & R & Y). exists [], [], [], l. split; [|split; [now left|split; [now left|split; [now left|exact Y]]]].
        assert (PA : forall t, level_of t = 3%nat -> part_parser t (w' ++ s) = None) by (intros t L; apply (passed t p 4 w'); [now apply point_passes|exact W3|apply SS]).
        rewrite or_no; [exact R|]. rewrite or_no; [now apply point_no; apply PA|]. rewrite or_no; [now apply bind_no|]. rewrite or_no; now apply bind_no.
      * destruct (point_yes q w p w' s W2 N2 W3 S) as (l & l' & R & Y & Y'). exists [], [], l, l'. split; [|split; [now left|split; [now left|auto]]].
        apply or_yes. rewrite or_no; [exact R|]. rewrite or_no; [now apply bind_no|]. rewrite or_no; now apply bind_no.
    + assert (M' : w' = [] \/ w <> []) by (destruct M as [M|[M|[_ M]]]; auto; contradiction).
      destruct (paragraph_yes b wb q w p w' s W1 N1 W2 W3 M' S) as (l1 & l2 & l3 & R & Y1 & Y2 & Y3). exists [], l1, l2, l3. split; [|split; [now left|auto]].
      apply or_yes, or_yes. rewrite or_no; [exact R|]. rewrite or_no; now apply bind_no.
  - assert (M' : w' = [] \/ w <> []) by (destruct M as [M|[M|[M _]]]; auto; contradiction).
    destruct W0 as [[_ ->]|(t & x & L & W & ->)]; [contradiction|]. change ((u8 " " ++ x) ++ wb ++ w ++ w' ++ s) with (u8 " " ++ x ++ wb ++ w ++ w' ++ s).
    destruct (part_reads total t a x (wb ++ w ++ w' ++ s) W (level_gap _ _ _ _ W1 (level_gap _ _ _ _ W2 (level_gap _ _ _ _ W3 G))) (level_dash _ _ _ _ W1 (level_dash _ _ _ _ W2 (level_dash _ _ _ _ W3 D)))) as (g & P & Y).
    destruct t; try discriminate L. rewrite <- part_space in P. destruct (nonempty_level _ _ _ W1) as [->|N1].
    + apply empty_level in W1 as ->. cbn [app] in *. destruct (point_opt q w p w' s W2 W3 M' S) as (o & l & l' & O & E & Y1 & Y2). exists [g], [], l, l'.
      split; [|split; [right; exists PArticle, g; auto|split; [now left|auto]]]. apply or_yes, or_yes, or_yes. rewrite or_no.
      * unfold ref_with_article_no_paragraph. rewrite (bind_yes _ _ _ _ _ P), (bind_yes _ _ _ _ _ O), E. reflexivity.
      * unfold ref_with_article_with_paragraph. rewrite (bind_yes _ _ _ _ _ P). apply bind_no, bind_no. exact (paragraph_no q w p w' s W2 W3 S).
    + destruct (paragraph_yes b wb q w p w' s W1 N1 W2 W3 M' S) as (l1 & l2 & l3 & R & Y1 & Y2 & Y3). exists [g], l1, l2, l3.
      split; [|split; [right; exists PArticle, g; auto|auto]]. apply or_yes, or_yes, or_yes, or_yes. unfold ref_with_article_with_paragraph. rewrite (bind_yes _ _ _ _ _ P), (bind_yes _ _ _ _ _ R). reflexivity.
Qed.
Lemma any_no s : partless s -> any_reference s = None.
Proof.
  intros SS. unfold any_reference. rewrite or_no; [now apply subpoint_no|]. rewrite or_no; [now apply point_no|]. rewrite or_no; [apply bind_no; exact (SS PParagraph)|].
  rewrite or_no; apply bind_no; exact (SS PArticle).
Qed.

(** * Its conversion *)

Definition put_act (act : option pystr) (r : reference) : reference := mk_ref act (r_article r) (r_paragraph r) (r_point r) (r_subpoint r).
Lemma says_converts act l0 l1 l2 l3 a b q p x y : says_level 1 a l0 -> says_level 2 b l1 -> says_level 3 q l2 -> says_level 4 p l3 ->
  convert_single_in_text_reference act (mk_greference (l0 ++ l1 ++ l2 ++ l3) (x, y)) = Ok [mk_outgoing x y (mk_ref act a b q p)].
Proof.
  assert (S : forall k p l, says_level k p l -> (p = RNone /\ l = []) \/ exists t, level_of t = k /\ ((exists i z sp, p = RId i /\ l = [mk_gpart t [mk_gsingle z sp] []] /\ concat z = i) \/
    (exists i j z z' sp, p = RRange i j /\ l = [mk_gpart t [] [mk_grange z z' sp]] /\ concat z = i /\ concat z' = j))).
  { intros k p' l [H|(t & g & L & -> & H)]; [now left|]. right. exists t. split; [exact L|]. destruct p' as [|i|i j]; cbn [says_part] in H; [destruct H|left|right].
    - destruct H as (z & sp & -> & H). exists i, z, sp. auto.
    - destruct H as (z & z' & sp & -> & H & H'). exists i, j, z, z', sp. auto. }
  intros S0 S1 S2 S3. apply S in S0, S1, S2, S3. clear S.
  destruct S0 as [[-> ->]|([] & L0 & [(i0 & z0 & sp0 & -> & -> & <-)|(i0 & j0 & z0 & y0 & sp0 & -> & -> & <- & <-)])]; try discriminate L0;
  destruct S1 as [[-> ->]|([] & L1 & [(i1 & z1 & sp1 & -> & -> & <-)|(i1 & j1 & z1 & y1 & sp1 & -> & -> & <- & <-)])]; try discriminate L1;
  destruct S2 as [[-> ->]|([] & L2 & [(i2 & z2 & sp2 & -> & -> & <-)|(i2 & j2 & z2 & y2 & sp2 & -> & -> & <- & <-)])]; try discriminate L2;
  destruct S3 as [[-> ->]|([] & L3 & [(i3 & z3 & sp3 & -> & -> & <-)|(i3 & j3 & z3 & y3 & sp3 & -> & -> & <- & <-)])]; try discriminate L3;
  reflexivity.
Qed.

(* where a reference begins *)
Lemma reference_solid r w s : reference_written r w -> ws (w ++ s) = w ++ s.
Proof.
  intros (a & b & q & p & W0 & W1 & W2 & W3 & E & _).
  assert (K : forall k i x z, level_written k i x -> x <> [] -> x ++ z = u8 " " ++ w -> ws (w ++ s) = w ++ s).
  { intros k i x z [[_ ->]|(t & y & _ & (x' & e & X & _ & ->) & ->)] N H; [contradiction|]. injection H as <-. rewrite <- !app_assoc. eapply solid_item. exact X. }
  destruct a as [|c a]; [|apply (K 1%nat (r_article r) (c :: a) (b ++ q ++ p)); [exact W0|discriminate|exact E]].
  destruct b as [|c b]; [|apply (K 2%nat (r_paragraph r) (c :: b) (q ++ p)); [exact W1|discriminate|exact E]].
  destruct q as [|c q]; [|apply (K 3%nat (r_point r) (c :: q) p); [exact W2|discriminate|exact E]].
  apply (K 4%nat (r_subpoint r) p []); [exact W3| |now rewrite app_nil_r].
  cbn [app] in E. rewrite E. discriminate.
Qed.
Lemma part_rule_ws t s : part_parser t (ws s) = part_parser t s.
Proof. rewrite part_parser_eq. unfold g_part_rule, p_rule. now rewrite ws_idem. Qed.
Lemma any_space s : any_reference (u8 " " ++ s) = any_reference s.
Proof.
  assert (P : forall t, part_parser t (u8 " " ++ s) = part_parser t s) by (intros; apply part_space). pose proof (P PArticle) as P1. pose proof (P PParagraph) as P2. pose proof (P PAlphabeticPoint) as P3.
  pose proof (P PNumericPoint) as P4. pose proof (P PAlphabeticSubpoint) as P5. pose proof (P PNumericSubpoint) as P6. cbn [PegProofs24.part_parser] in *.
  unfold any_reference, ref_with_article_with_paragraph, ref_with_article_no_paragraph, ref_with_paragraph, ref_with_point, ref_with_subpoint, g_any_point, g_any_subpoint, p_or, p_map, p_bind. now rewrite P1, P2, P3, P4, P5, P6.
Qed.
Theorem reference_reads r w s : reference_written r w -> silent s ->
  exists g, g_reference_rule total (w ++ s) = Some (g, s) /\
    forall act, convert_single_in_text_reference act g = Ok [mk_outgoing (pos_of total (w ++ s)) (pos_of total s) (put_act act r)].
Proof.
  intros R S. pose proof (reference_solid r w s R) as E. destruct R as (a & b & q & p & W0 & W1 & W2 & W3 & F & M).
  assert (NE : a ++ b ++ q ++ p <> []) by (rewrite F; discriminate).
  destruct (any_reads _ a _ b _ q _ p s W0 W1 W2 W3 NE M S) as (l0 & l1 & l2 & l3 & A & Y0 & Y1 & Y2 & Y3).
  replace (a ++ b ++ q ++ p ++ s) with (u8 " " ++ w ++ s) in A by (change (u8 " " ++ w ++ s) with ((u8 " " ++ w) ++ s); rewrite <- F; now rewrite <- !app_assoc).
  rewrite any_space in A. unfold g_reference_rule, reference_of. fold any_reference. eexists. split.
  - apply (map_yes (fun x => mk_greference (fst x) (snd x))). apply span_yes. rewrite E. exact A.
  - intros act. cbn [fst snd]. rewrite E. now apply says_converts.
Qed.
Lemma reference_no s : partless s -> g_reference_rule total s = None.
Proof. intros S. unfold g_reference_rule, reference_of. apply (map_no (fun x => mk_greference (fst x) (snd x))). apply span_no. apply any_no. intros t. rewrite part_rule_ws. apply S. Qed.
End Total.
