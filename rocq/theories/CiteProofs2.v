(* References with lists, read forwards. *)
From Coq Require Import Lia Permutation Sorted.
From Verif Require Import PyBase PyBaseFacts UnicodeAlnum NumModel IdModel LineModel DateModel RefModel TreeModel StructModel SemModel GramModel GramSpec GramProofs GramProofs2 GramProofs3 PegModel PegSpec PegSpec2 PegProofs PegProofs2 PegProofs7 PegProofs10 PegProofs11 PegProofs14 PegProofs22 PegProofs23 PegProofs24 PegProofs25 PegProofs26 PegProofs27 PegProofs28 PegProofs29 PegProofs30 PegProofs31 CiteSpec CiteProofs.
Local Open Scope Z_scope.

Section Total.
Variable total : Z.
Notation part_parser := (part_parser total).
Notation silent := (silent total).
Notation partless := (partless total).
Notation any_reference := (any_reference total).

(** * Levels *)

(* a level before the text s *)
Definition level_at (n : nat) (w : pystr) (out : list addition) (s : pystr) : Prop := level_listed n (pos_of total (w ++ s)) w out.
(* the items of a level, its kind and the part that was read *)
Definition says_list (n : nat) (out : list addition) (l : list g_part) : Prop :=
  (out = [] /\ l = []) \/ exists t k x items g, level_of t = n /\ l = [g] /\ items_written t k x items /\ few t items /\ joined items out /\ says_items t items g.
Lemma listed_cases n w out s : level_at n w out s -> (w = [] /\ out = []) \/
  exists t x e items, level_of t = n /\ items_written t (pos_of total (x ++ u8 " " ++ unit_text t ++ e ++ s)) x items /\ unit_ending t e /\ few t items /\ joined items out /\ w = u8 " " ++ x ++ u8 " " ++ unit_text t ++ e.
Proof.
  intros [H|(t & x & e & items & L & W & E & O & J & ->)]; [now left|right]. exists t, x, e, items. split; [exact L|]. split; [|auto]. rewrite <- !app_assoc in W. rewrite (pos_app total (u8 " ")) in W.
  replace (pos_of total (x ++ u8 " " ++ unit_text t ++ e ++ s)) with (pos_of total (x ++ u8 " " ++ unit_text t ++ e ++ s) - size (u8 " ") + 1) by (change (size (u8 " ")) with 1; lia). exact W.
Qed.
Lemma listed_gap n w out s s' : level_at n w out s' -> gap s -> gap (w ++ s).
Proof. intros [[-> _]|(t & x & e & items & _ & _ & _ & _ & _ & ->)] G; [exact G|now left]. Qed.
Lemma items_lc t k x items s : items_written t k x items -> ~ is_dash (lc (x ++ s)).
Proof.
  intros W D. assert (C : exists p y s', item_written t p y /\ x ++ s = y ++ s') by (destruct W as [k p x W|k p x sep y l W S _]; [exists p, x, s; auto|exists p, x, (sep ++ y ++ s); split; [exact W|now rewrite <- !app_assoc]]).
  destruct C as (p & y & s' & W' & E). rewrite E in D. pose proof (item_class t p y s' W') as C.
  apply dash_chr in D as D1. destruct D1 as (_ & D1 & D2 & _). destruct t; try congruence. rewrite C in D. unfold is_dash in D. cbn in D. intuition discriminate.
Qed.
Lemma listed_dash n w out s s' : level_at n w out s' -> ~ is_dash (lc s) -> ~ is_dash (lc (w ++ s)).
Proof.
  intros [[-> _]|(t & x & e & items & _ & W & _ & _ & _ & ->)] G; [exact G|]. rewrite <- app_assoc. change (u8 " " ++ (x ++ u8 " " ++ unit_text t ++ e) ++ s) with (32%N :: (x ++ u8 " " ++ unit_text t ++ e) ++ s).
  rewrite lc_space by reflexivity. rewrite <- app_assoc. eapply items_lc. exact W.
Qed.
Lemma listed_passed t q w out s : (forall t', level_of t' = q -> passes t t') -> level_at q w out s -> part_parser t s = None -> part_parser t (w ++ s) = None.
Proof.
  intros P L S. destruct (listed_cases _ _ _ _ L) as [[-> _]|(t' & x & e & items & Lv & W & E & O & _ & ->)]; [exact S|]. rewrite <- !app_assoc. rewrite part_space. eapply list_passed; [now apply P|exact W|exact O|exact E].
Qed.
Lemma listed_reads t x items e s out : items_written t (pos_of total (x ++ u8 " " ++ unit_text t ++ e ++ s)) x items -> few t items -> joined items out -> unit_ending t e -> gap s -> ~ is_dash (lc s) ->
  exists g, part_parser t (u8 " " ++ x ++ u8 " " ++ unit_text t ++ e ++ s) = Some (g, s) /\ says_list (level_of t) out [g].
Proof.
  intros W O J E G D. destruct (list_reads total t _ x items e s W E G D eq_refl) as (g & P & Y). exists g. rewrite part_space. split; [exact P|]. right. eexists. eexists. eexists. eexists. eexists. split; [reflexivity|]. split; [reflexivity|]. eauto.
Qed.
Lemma list_subpoint_yes p w s : level_at 4 w p s -> w <> [] -> silent s -> exists l, ref_with_subpoint total (w ++ s) = Some (l, s) /\ says_list 4 p l.
Proof.
  intros LL N (S & D & G). destruct (listed_cases _ _ _ _ LL) as [[-> _]|(t & x & e & items & L & W & E & O & J & ->)]; [contradiction|]. rewrite <- !app_assoc.
  destruct (listed_reads t x items e s p W O J E G D) as (g & P & Y). exists [g]. split; [|rewrite <- L; exact Y].
  unfold ref_with_subpoint. apply (map_yes (fun x => [x])). unfold g_any_subpoint. destruct t; try discriminate L.
  - apply or_yes. exact P.
  - rewrite or_no; [exact P|].
    change (part_parser PAlphabeticSubpoint (u8 " " ++ x ++ u8 " " ++ unit_text PNumericSubpoint ++ e ++ s) = None). rewrite part_space. eapply list_passed; [exact I|exact W|exact O|exact E].
Qed.
Lemma listed_nonempty (w : pystr) : w = [] \/ w <> [].
Proof. destruct w; [now left|right; discriminate]. Qed.
Lemma listed_empty n out s : level_at n [] out s -> out = [].
Proof. intros [[_ ->]|(t & x & e & items & _ & _ & _ & _ & _ & H)]; [reflexivity|discriminate]. Qed.
Lemma says_none n : says_list n [] []. Proof. now left. Qed.
Lemma list_subpoint_opt p w s : level_at 4 w p s -> silent s -> exists o, p_opt (ref_with_subpoint total) (w ++ s) = Some (o, s) /\ says_list 4 p (parts_of o).
Proof.
  intros W S. destruct (listed_nonempty w) as [->|N].
  - apply listed_empty in W as ->. exists None. split; [apply opt_no; apply subpoint_no, S|apply says_none].
  - destruct (list_subpoint_yes p w s W N S) as (l & R & Y). exists (Some l). split; [now apply opt_yes|exact Y].
Qed.
Lemma list_point_yes q w p w' s : level_at 3 w q (w' ++ s) -> w <> [] -> level_at 4 w' p s -> silent s ->
  exists l l', ref_with_point total (w ++ w' ++ s) = Some (l ++ l', s) /\ says_list 3 q l /\ says_list 4 p l'.
Proof.
  intros LL N W' S. pose proof S as (_ & D & G). destruct (listed_cases _ _ _ _ LL) as [[-> _]|(t & x & e & items & L & W & E & O & J & ->)]; [contradiction|]. rewrite <- !app_assoc.
  destruct (listed_reads t x items e (w' ++ s) q W O J E (listed_gap _ _ _ _ _ W' G) (listed_dash _ _ _ _ _ W' D)) as (g & P & Y). destruct (list_subpoint_opt p w' s W' S) as (o & OO & YO).
  exists [g], (parts_of o). split; [|split; [rewrite <- L; exact Y|exact YO]]. unfold ref_with_point.
  assert (A : g_any_point total (u8 " " ++ x ++ u8 " " ++ unit_text t ++ e ++ w' ++ s) = Some (g, w' ++ s)).
  { unfold g_any_point. destruct t; try discriminate L.
    - apply or_yes. exact P.
    - rewrite or_no; [exact P|].
      change (part_parser PAlphabeticPoint (u8 " " ++ x ++ u8 " " ++ unit_text PNumericPoint ++ e ++ w' ++ s) = None). rewrite part_space. eapply list_passed; [exact I|exact W|exact O|exact E]. }
  now rewrite (bind_yes _ _ _ _ _ A), (bind_yes _ _ _ _ _ OO).
Qed.
Lemma list_point_opt q w p w' s : level_at 3 w q (w' ++ s) -> level_at 4 w' p s -> (w' = [] \/ w <> []) -> silent s ->
  exists o l l', p_opt (ref_with_point total) (w ++ w' ++ s) = Some (o, s) /\ parts_of o = l ++ l' /\ says_list 3 q l /\ says_list 4 p l'.
Proof.
  intros W W' N S. destruct (listed_nonempty w) as [->|M].
  - destruct N as [->|N]; [|contradiction]. apply listed_empty in W as ->. apply listed_empty in W' as ->. exists None, [], []. split; [apply opt_no; apply point_no; apply S|]. split; [reflexivity|]. split; apply says_none.
  - destruct (list_point_yes q w p w' s W M W' S) as (l & l' & R & Y & Y'). exists (Some (l ++ l')), l, l'. split; [now apply opt_yes|]. auto.
Qed.
Lemma list_paragraph_no q w p w' s : level_at 3 w q (w' ++ s) -> level_at 4 w' p s -> silent s -> part_parser PParagraph (w ++ w' ++ s) = None.
Proof.
  intros W W' (S & _). apply (listed_passed PParagraph 3 w q); [apply paragraph_passes; lia|exact W|]. apply (listed_passed PParagraph 4 w' p); [apply paragraph_passes; lia|exact W'|]. apply S.
Qed.
Lemma list_paragraph_yes b wb q w p w' s : level_at 2 wb b (w ++ w' ++ s) -> wb <> [] -> level_at 3 w q (w' ++ s) -> level_at 4 w' p s -> (w' = [] \/ w <> []) -> silent s ->
  exists l1 l2 l3, ref_with_paragraph total (wb ++ w ++ w' ++ s) = Some (l1 ++ l2 ++ l3, s) /\ says_list 2 b l1 /\ says_list 3 q l2 /\ says_list 4 p l3.
Proof.
  intros LL N W2 W3 M S. pose proof S as (_ & D & G). destruct (listed_cases _ _ _ _ LL) as [[-> _]|(t & x & e & items & L & W & E & O & J & ->)]; [contradiction|]. rewrite <- !app_assoc.
  destruct (listed_reads t x items e (w ++ w' ++ s) b W O J E (listed_gap _ _ _ _ _ W2 (listed_gap _ _ _ _ _ W3 G)) (listed_dash _ _ _ _ _ W2 (listed_dash _ _ _ _ _ W3 D))) as (g & P & Y).
  destruct (list_point_opt q w p w' s W2 W3 M S) as (o & l & l' & OO & F & Y1 & Y2). exists [g], l, l'. split; [|split; [rewrite <- L; exact Y|auto]].
  unfold ref_with_paragraph. destruct t; try discriminate L. now rewrite (bind_yes _ _ _ _ _ P), (bind_yes _ _ _ _ _ OO), F.
Qed.
Lemma list_article_no b wb q w p w' s : level_at 2 wb b (w ++ w' ++ s) -> level_at 3 w q (w' ++ s) -> level_at 4 w' p s -> silent s -> part_parser PArticle (wb ++ w ++ w' ++ s) = None.
Proof.
  intros W1 W2 W3 (S & _). apply (listed_passed PArticle 2 wb b); [apply article_passes; lia|exact W1|]. apply (listed_passed PArticle 3 w q); [apply article_passes; lia|exact W2|].
  apply (listed_passed PArticle 4 w' p); [apply article_passes; lia|exact W3|]. apply S.
Qed.
Lemma list_any_reads a wa b wb q w p w' s : level_at 1 wa a (wb ++ w ++ w' ++ s) -> level_at 2 wb b (w ++ w' ++ s) -> level_at 3 w q (w' ++ s) -> level_at 4 w' p s ->
  wa ++ wb ++ w ++ w' <> [] -> (w' = [] \/ w <> [] \/ (wa = [] /\ wb = [])) -> silent s ->
  exists l0 l1 l2 l3, any_reference (wa ++ wb ++ w ++ w' ++ s) = Some (l0 ++ l1 ++ l2 ++ l3, s) /\ says_list 1 a l0 /\ says_list 2 b l1 /\ says_list 3 q l2 /\ says_list 4 p l3.
Proof.
  intros W0 W1 W2 W3 NE M S. pose proof S as (SS & D & G). unfold any_reference. destruct (listed_nonempty wa) as [->|N0].
  - apply listed_empty in W0 as ->. cbn [app] in *. pose proof (list_article_no b wb q w p w' s W1 W2 W3 S) as NA. destruct (listed_nonempty wb) as [->|N1].
    + apply listed_empty in W1 as ->. cbn [app] in *. pose proof (list_paragraph_no q w p w' s W2 W3 S) as NP. destruct (listed_nonempty w) as [->|N2].
      * apply listed_empty in W2 as ->. cbn [app] in *. destruct (list_subpoint_yes p w' s W3 NE S) as (l & R & Y). exists [], [], [], l. split; [|split; [now left|split; [now left|split; [now left|exact Y]]]].
        assert (PA : forall t, level_of t = 3%nat -> part_parser t (w' ++ s) = None) by (intros t L; apply (listed_passed t 4 w' p); [now apply point_passes|exact W3|apply SS]).
        rewrite or_no; [exact R|]. rewrite or_no; [now apply point_no; apply PA|]. rewrite or_no; [now apply bind_no|]. rewrite or_no; now apply bind_no.
      * destruct (list_point_yes q w p w' s W2 N2 W3 S) as (l & l' & R & Y & Y'). exists [], [], l, l'. split; [|split; [now left|split; [now left|auto]]].
        apply or_yes. rewrite or_no; [exact R|]. rewrite or_no; [now apply bind_no|]. rewrite or_no; now apply bind_no.
    + assert (M' : w' = [] \/ w <> []) by (destruct M as [M|[M|[_ M]]]; auto; contradiction).
      destruct (list_paragraph_yes b wb q w p w' s W1 N1 W2 W3 M' S) as (l1 & l2 & l3 & R & Y1 & Y2 & Y3). exists [], l1, l2, l3. split; [|split; [now left|auto]].
      apply or_yes, or_yes. rewrite or_no; [exact R|]. rewrite or_no; now apply bind_no.
  - assert (M' : w' = [] \/ w <> []) by (destruct M as [M|[M|[M _]]]; auto; contradiction).
    destruct (listed_cases _ _ _ _ W0) as [[-> _]|(t & x & e & items & L & W & E & O & J & ->)]; [contradiction|]. rewrite <- !app_assoc.
    destruct (listed_reads t x items e (wb ++ w ++ w' ++ s) a W O J E (listed_gap _ _ _ _ _ W1 (listed_gap _ _ _ _ _ W2 (listed_gap _ _ _ _ _ W3 G))) (listed_dash _ _ _ _ _ W1 (listed_dash _ _ _ _ _ W2 (listed_dash _ _ _ _ _ W3 D)))) as (g & P & Y).
    rewrite L in Y. destruct t; try discriminate L. destruct (listed_nonempty wb) as [->|N1].
    + apply listed_empty in W1 as ->. cbn [app] in *. destruct (list_point_opt q w p w' s W2 W3 M' S) as (o & l & l' & OO & F & Y1 & Y2). exists [g], [], l, l'.
      split; [|split; [exact Y|split; [now left|auto]]]. apply or_yes, or_yes, or_yes. rewrite or_no.
      * unfold ref_with_article_no_paragraph. rewrite (bind_yes _ _ _ _ _ P), (bind_yes _ _ _ _ _ OO), F. reflexivity.
      * unfold ref_with_article_with_paragraph. rewrite (bind_yes _ _ _ _ _ P). apply bind_no, bind_no. exact (list_paragraph_no q w p w' s W2 W3 S).
    + destruct (list_paragraph_yes b wb q w p w' s W1 N1 W2 W3 M' S) as (l1 & l2 & l3 & R & Y1 & Y2 & Y3). exists [g], l1, l2, l3.
      split; [|split; [exact Y|auto]]. apply or_yes, or_yes, or_yes, or_yes. unfold ref_with_article_with_paragraph. rewrite (bind_yes _ _ _ _ _ P), (bind_yes _ _ _ _ _ R). reflexivity.
Qed.
End Total.
