(* The rows are determined, every box is kept, and characters become boxes. *)
From Coq Require Import Floats.SpecFloat Sorting.Sorted Permutation Lia.
From Coq Require Import ZifyBool ZifyNat ZifyN.
From Verif Require Import PyBase PyBaseFacts LineModel PdfModel PdfSpec PdfProofs PdfProofs2 PdfProofs3.
Local Open Scope Z_scope.

(** * One way to form rows *)
Fixpoint asc (ys : list pyfloat) : Prop :=
  match ys with a :: (b :: _) as t => f_lt a b /\ ~ close a b /\ asc t | _ => True end.
Lemma asc_snoc l a b : asc (l ++ [b]) -> f_lt b a -> ~ close b a -> asc (l ++ [b; a]).
Proof.
  induction l as [|x l IH]; cbn; [auto|]. intros S L C. destruct l as [|x' l]; [cbn in *; tauto|]. destruct S as (S1 & S2 & S3). exact (conj S1 (conj S2 (IH S3 L C))).
Qed.
Lemma spread_asc ys : spread ys -> asc (rev ys).
Proof.
  induction ys as [|a ys IH]; [cbn; auto|]. destruct ys as [|b ys]; [cbn; auto|]. intros (S1 & S2 & S3). cbn [rev] in *. rewrite <- app_assoc. cbn [app]. apply asc_snoc; auto.
Qed.
Lemma asc_tail a l : asc (a :: l) -> asc l.
Proof. destruct l; cbn; tauto. Qed.
Lemma asc_sorted l : asc l -> StronglySorted f_lt l.
Proof.
  induction l as [|a l IH]; [constructor|]. intros A. pose proof (IH (asc_tail _ _ A)) as S. constructor; auto. destruct l as [|b l]; auto. destruct A as (L & _ & _).
  inversion S as [|? ? S' H]; subst. constructor; auto. eapply Forall_impl; [|exact H]. intros c Hc. exact (lt_trans _ _ _ L Hc).
Qed.
Lemma asc_mid p y a r : asc (p ++ y :: a :: r) -> f_lt y a /\ ~ close y a.
Proof. induction p as [|x p IH]; cbn [app]; intros A; [destruct A as (? & ? & _); auto|]. apply IH. eapply asc_tail. exact A. Qed.

Definition bases_ok (bs : list textbox) (L : list pyfloat) : Prop :=
  asc L /\ (forall y, In y L -> exists b, In b bs /\ tb_y b = y) /\ (forall b, In b bs -> exists y, row_of L y b /\ (tb_y b = y \/ close y (tb_y b))).
Lemma rev_last {A} (p : list A) : p = [] \/ exists q y, p = q ++ [y].
Proof. destruct p as [|a p]; [now left|]. right. destruct (exists_last (l := a :: p)) as (q & y & E); [discriminate|]. eauto. Qed.
(* the next row that begins in one cannot be passed over by the other *)
Lemma no_skip bs p a A A' : bases_ok bs (p ++ a :: A) -> bases_ok bs (p ++ A') -> Forall (f_lt a) A' -> False.
Proof.
  intros (As & Ay & _) (_ & _ & Br) F. destruct (Ay a) as (b & Ib & Eb); [apply in_or_app; right; now left|].
  destruct (Br b Ib) as (y & (Iy & Ly & My) & C). rewrite Eb in *. rewrite Forall_forall in F.
  assert (Ip : In y p). { apply in_app_or in Iy as [|I]; auto. specialize (F _ I). destruct (lt_irrefl _ (lt_le_trans _ _ _ F Ly)). }
  destruct (rev_last p) as [->|(q & z & ->)]; [destruct Ip|]. rewrite <- app_assoc in As. cbn [app] in As. destruct (asc_mid _ _ _ _ As) as [Lz Cz].
  assert (y = z).
  { apply le_antisym; [|apply My; [rewrite <- app_assoc; apply in_or_app; right; now left|now left]].
    apply in_app_or in Ip as [Ip|[<-|[]]]; [|apply le_refl]. left. apply asc_sorted in As. apply sorted_app in As as (_ & _ & S). apply S; cbn; auto. }
  subst z. destruct C as [C|C]; [|contradiction]. subst y. exact (lt_irrefl _ Lz).
Qed.
Lemma bases_unique bs : Forall proper_box bs -> forall A A' p, bases_ok bs (p ++ A) -> bases_ok bs (p ++ A') -> A = A'.
Proof.
  intros F. assert (Pr : forall L y, bases_ok bs L -> In y L -> proper y). { intros L y (_ & H & _) I. destruct (H _ I) as (b & Ib & <-). rewrite Forall_forall in F. apply F; auto. }
  assert (Sl : forall p a A, bases_ok bs (p ++ a :: A) -> Forall (f_lt a) A). { intros p a A (H & _). apply asc_sorted in H. apply sorted_app in H as (_ & H & _). now inversion H. }
  induction A as [|a A IH]; intros [|a' A'] p B B'; auto.
  - exfalso. apply (no_skip bs p a' A' []); auto.
  - exfalso. apply (no_skip bs p a A []); auto.
  - destruct (lt_total a a') as [L|[->|L]].
    + apply (Pr _ _ B). apply in_or_app. right. now left.
    + apply (Pr _ _ B'). apply in_or_app. right. now left.
    + exfalso. apply (no_skip bs p a A (a' :: A')); auto. constructor; auto. eapply Forall_impl; [|exact (Sl _ _ _ B')]. intros c Hc. exact (lt_trans _ _ _ L Hc).
    + f_equal. apply (IH A' (p ++ [a'])); rewrite <- app_assoc; auto.
    + exfalso. apply (no_skip bs p a' A' (a :: A)); auto. constructor; auto. eapply Forall_impl; [|exact (Sl _ _ _ B)]. intros c Hc. exact (lt_trans _ _ _ L Hc).
Qed.
Lemma row_of_rev L y b : row_of (rev L) y b <-> row_of L y b.
Proof. unfold row_of. rewrite <- in_rev. split; intros (I & Le & M); repeat split; auto; intros z Iz; apply M; auto; [now rewrite <- in_rev|now rewrite <- in_rev in Iz]. Qed.
Lemma page_bases bs rs : page_rows bs rs -> bases_ok bs (rev (map fst rs)).
Proof.
  intros (S & Y & R & _). split; [now apply spread_asc|]. split; [intros y I; apply Y; now rewrite in_rev|]. intros b Ib. destruct (R b Ib) as (y & Ry & C). exists y. now rewrite row_of_rev.
Qed.
Theorem rows_unique bs rs rs' : Forall proper_box bs -> page_rows bs rs -> page_rows bs rs' -> rs = rs'.
Proof.
  intros F P P'. assert (E : map fst rs = map fst rs').
  { rewrite <- (rev_involutive (map fst rs)), <- (rev_involutive (map fst rs')). f_equal. apply (bases_unique bs F _ _ []); cbn; now apply page_bases. }
  destruct P as (_ & _ & _ & Q), P' as (_ & _ & _ & Q'). rewrite <- E in Q'. revert Q Q' E. generalize (map fst rs) at 1 2. intros ys. revert rs'.
  induction rs as [|[y r] rs IH]; intros [|[y' r'] rs'] Q Q' E; cbn in E; try discriminate; auto. injection E as <- E.
  inversion Q as [|? ? [S I] Q1]; subst. inversion Q' as [|? ? [S' I'] Q1']; subst. cbn [fst snd] in *. f_equal; [|apply IH; auto]. f_equal.
  apply (sorted_unique (fun a b => f_lt (tb_x a) (tb_x b))); auto.
  - intros a. apply lt_irrefl.
  - intros a b. apply lt_asym.
  - intros b. now rewrite I, I'.
Qed.

(** * Nothing is lost *)
Lemma row_same ys y a b : tb_y a = tb_y b -> row_of ys y a -> row_of ys y b.
Proof. unfold row_of. now intros ->. Qed.
Theorem rows_kept bs rs : page_rows bs rs -> NoDup bs ->
  (forall a b y, In a bs -> In b bs -> tb_x a = tb_x b -> row_of (map fst rs) y a -> row_of (map fst rs) y b -> a = b) ->
  Permutation (flat_map snd rs) bs.
Proof.
  intros P N A. pose proof (page_bases _ _ P) as (As & _). destruct P as (_ & _ & R & Q). apply NoDup_Permutation; auto.
  - assert (Ny : NoDup (map fst rs)).
    { apply asc_sorted in As. assert (NoDup (rev (map fst rs))); [|rewrite <- (rev_involutive (map fst rs)); now apply NoDup_rev].
      clear -As. induction As; constructor; auto. intros I. rewrite Forall_forall in H. exact (lt_irrefl _ (H _ I)). }
    revert Q Ny. generalize (map fst rs) at 1. intros ys. induction rs as [|r rs IH]; intros Q Ny; cbn; [constructor|]. inversion Q as [|? ? [S I] Q1]; subst. cbn in Ny. inversion Ny as [|? ? N1 N2]; subst.
    assert (Nr : NoDup (snd r)). { clear -S. induction S; constructor; auto. intros I. rewrite Forall_forall in H. exact (lt_irrefl _ (H _ I)). }
    assert (Nt : NoDup (flat_map snd rs)).
    { clear -Q1 N2. induction rs as [|r rs IH]; cbn; [constructor|]. inversion Q1 as [|? ? [S I] Q2]; subst. cbn in N2. inversion N2 as [|? ? N1 N3]; subst. specialize (IH Q2 N3).
      assert (Nr : NoDup (snd r)). { clear -S. induction S; constructor; auto. intros I. rewrite Forall_forall in H. exact (lt_irrefl _ (H _ I)). }
      assert (Dj : forall b, In b (snd r) -> ~ In b (flat_map snd rs)).
      { intros b Ib Ib'. apply in_flat_map in Ib' as (r' & Ir & Ib'). rewrite Forall_forall in Q2. destruct (Q2 _ Ir) as [_ I']. apply I in Ib as (_ & Rb & _). apply I' in Ib' as (_ & Rb' & _).
        apply N1. rewrite (row_of_unique _ _ _ _ Rb Rb'). now apply in_map. }
      clear -Nr IH Dj. induction (snd r) as [|b l IHl]; cbn; auto. inversion Nr; subst. constructor.
      - intros I. apply in_app_or in I as [I|I]; auto. apply (Dj b); cbn; auto.
      - apply IHl; auto. intros c Ic. apply Dj. now right. }
    assert (Dj : forall b, In b (snd r) -> ~ In b (flat_map snd rs)).
    { intros b Ib Ib'. apply in_flat_map in Ib' as (r' & Ir & Ib'). rewrite Forall_forall in Q1. destruct (Q1 _ Ir) as [_ I']. apply I in Ib as (_ & Rb & _). apply I' in Ib' as (_ & Rb' & _).
      apply N1. rewrite (row_of_unique _ _ _ _ Rb Rb'). now apply in_map. }
    clear -Nr Nt Dj. induction (snd r) as [|b l IHl]; cbn; auto. inversion Nr; subst. constructor.
    + intros I. apply in_app_or in I as [I|I]; auto. apply (Dj b); cbn; auto.
    + apply IHl; auto. intros c Ic. apply Dj. now right.
  - intros b. rewrite Forall_forall in Q. split.
    + intros I. apply in_flat_map in I as (r & Ir & Ib). destruct (Q _ Ir) as [_ J]. apply J in Ib. tauto.
    + intros Ib. destruct (R b Ib) as (y & Ry & _). pose proof Ry as (Iy & _). apply in_map_iff in Iy as (r & <- & Ir). apply in_flat_map. exists r. split; auto. destruct (Q _ Ir) as [_ J]. apply J. split; auto.
      split; auto. split.
      * apply in_split in Ib as (l1 & l2 & El). exists l1, l2. split; auto. rewrite Forall_forall. intros c Ic [Ex Ey].
        assert (Ic' : In c bs) by (rewrite El; apply in_or_app; now left). assert (Ib : In b bs) by (rewrite El; apply in_or_app; right; now left).
        assert (c = b) by (apply (A c b (fst r)); auto; eapply row_same; [symmetry; exact Ey|exact Ry]). subst c.
        rewrite El in N. apply NoDup_remove_2 in N. apply N. apply in_or_app. now left.
      * intros c Ic Rc Ex. rewrite (A c b (fst r)); auto. apply le_refl.
Qed.

(** * Text of a line *)
Lemma parts_text : forall bs from, flat_map p_content (row_parts from bs) = row_text bs.
Proof.
  induction bs as [|b bs IH]; intros from; [reflexivity|]. cbn [row_parts row_text flat_map p_content]. f_equal. destruct bs as [|c bs]; [reflexivity|].
  destruct (spaced b c); cbn [flat_map p_content]; rewrite IH; reflexivity.
Qed.
Theorem line_text m bs : l_content (row_line m bs) = row_text bs.
Proof. apply parts_text. Qed.
Lemma sub_zero x : proper x -> f_sub x f_zero = x.
Proof. intros [N Z]. unfold f_sub, f_zero. destruct x as [[]|[]| |s mm e]; try congruence; reflexivity. Qed.
Theorem line_indent m b bs : proper (tb_x b) -> l_indent (row_line m (b :: bs)) = tb_x b.
Proof. intros P. unfold l_indent, row_line. cbn [l_parts row_parts]. cbn [p_dx]. now apply sub_zero. Qed.
Definition no_spaces (s : pystr) : pystr := filter (fun c => negb (N.eqb c 32)) s.
Theorem text_kept bs : no_spaces (row_text bs) = no_spaces (flat_map tb_content bs).
Proof.
  unfold no_spaces. induction bs as [|b bs IH]; [reflexivity|]. cbn [row_text flat_map]. rewrite !filter_app, IH. f_equal. destruct bs as [|c bs]; [reflexivity|]. destruct (spaced b c); reflexivity.
Qed.
Lemma rows_text m rs : flat_map l_content (rows_lines m rs) = flat_map (fun r => row_text (snd r)) rs.
Proof.
  induction rs as [|[y bs] rs IH]; [reflexivity|]. cbn [rows_lines flat_map snd]. rewrite flat_map_app, IH, line_text. f_equal. destruct rs as [|[y' bs'] rs]; [reflexivity|]. destruct (gap y y'); reflexivity.
Qed.
Theorem page_text m rs : no_spaces (flat_map l_content (rows_lines m rs)) = no_spaces (flat_map tb_content (flat_map snd rs)).
Proof.
  rewrite rows_text. unfold no_spaces. induction rs as [|[y bs] rs IH]; [reflexivity|]. cbn [flat_map snd]. rewrite flat_map_app, !filter_app, IH. f_equal. apply text_kept.
Qed.

Theorem conflict bs : Forall proper_box bs -> ~ consistent bs -> extract_single_page bs = Err ValueError.
Proof.
  intros F N. unfold extract_single_page, sort_textboxes_into_dicts. destruct (collect_ok bs [] [] collect_nil F) as [(d & E & C)|[E _]]; [|now rewrite E].
  destruct N. exact (collected_consistent _ _ C).
Qed.

(** * Characters *)
Lemma replace_aux_chr (a b : N) : forall n s, (List.length s <= n)%nat -> replace_aux n [a] [b] s = map (fun c => if N.eqb a c then b else c) s.
Proof.
  induction n as [|n IH]; intros [|c s] L; cbn in *; auto; try lia. destruct (N.eqb a c); cbn; rewrite IH by lia; reflexivity.
Qed.
Lemma replace_chr (a b : N) s : replace_str [a] [b] s = map (fun c => if N.eqb a c then b else c) s.
Proof. apply replace_aux_chr. lia. Qed.
Lemma cid_ok f cid : 0 <= cid -> cid_to_string f cid = Ok (glyph f cid).
Proof.
  intros L. unfold cid_to_string, glyph. set (t := match fn_to_unichr f cid with Some t => t | None => _ end).
  change (u8 "Õ") with [213%N]. change (u8 "Ő") with [336%N]. change (u8 "õ") with [245%N]. change (u8 "ő") with [337%N].
  change (u8 "Û") with [219%N]. change (u8 "Ű") with [368%N]. change (u8 "û") with [251%N]. change (u8 "ű") with [369%N].
  assert (M : forall s, replace_str [251%N] [369%N] (replace_str [219%N] [368%N] (replace_str [245%N] [337%N] (replace_str [213%N] [336%N] s))) = map hungarian s).
  { intros s. rewrite !replace_chr, !map_map. apply map_ext. intros c. unfold hungarian. cbn [find fst snd].
    destruct (N.eqb_spec 213 c) as [<-|N1]; [reflexivity|]. destruct (N.eqb_spec 245 c) as [<-|N2]; [reflexivity|]. destruct (N.eqb_spec 219 c) as [<-|N3]; [reflexivity|].
    destruct (N.eqb_spec 251 c); reflexivity. }
  destruct (cid <? 256) eqn:E; cbn [andb bind]; [|now rewrite M].
  unfold chr_latin2. replace ((255 <? cid) || (cid <? 0)) with false by lia. cbn [bind]. fold (latin2 cid).
  destruct (str_eqb [latin2 cid] t) eqn:E1; cbn [negb andb].
  - apply str_eqb_eq in E1. rewrite <- E1, str_eqb_refl. cbn [bind]. now rewrite M.
  - destruct (str_eqb (str_upper [latin2 cid]) (str_upper t)); cbn [bind]; now rewrite M.
Qed.
Lemma render_ok c : good_char c -> exists o, render_char c = Ok o /\ match o with Some b => [b] | None => [] end = char_boxes c.
Proof.
  intros [L N]. unfold render_char, char_boxes. rewrite cid_ok by auto. cbn [bind]. destruct (glyph (ch_font c) (ch_cid c)) as [|a t]; [congruence|].
  unfold visible, str_isspace. destruct (in_ranges co_cf_ranges a) eqn:E1; cbn [negb].
  - rewrite andb_false_r. exists None. auto.
  - rewrite andb_true_r. destruct (forallb isspace_chr (a :: t)) eqn:E2; cbn [negb]; eexists; split; try reflexivity.
Qed.
Lemma run_chars : forall cs pages current started es, Forall good_char cs ->
  run_device pages current started (map RenderChar cs ++ es) = run_device pages (current ++ flat_map char_boxes cs) started es.
Proof.
  induction cs as [|c cs IH]; intros pages current started es F; cbn [map app run_device flat_map]; [now rewrite app_nil_r|]. inversion F as [|? ? Gc F']; subst.
  destruct (render_ok c Gc) as (o & -> & Eo). cbn [bind]. rewrite Eo, IH by auto. now rewrite <- app_assoc.
Qed.
Lemma run_pages : forall css pages current, Forall (Forall good_char) css ->
  run_device pages current true (flat_map page_events css) = Ok (pages ++ current :: map (flat_map char_boxes) css).
Proof.
  induction css as [|cs css IH]; intros pages current F; [reflexivity|]. inversion F; subst. cbn [flat_map page_events app run_device]. rewrite run_chars by auto. cbn [app]. rewrite IH by auto. cbn [map]. now rewrite <- app_assoc.
Qed.
Theorem pages_ok front css : Forall good_char front -> Forall (Forall good_char) css ->
  extract_textboxes (map RenderChar front ++ flat_map page_events css) = Ok (map (flat_map char_boxes) css).
Proof.
  intros Ff F. unfold extract_textboxes. rewrite run_chars by auto. destruct css as [|cs css]; [reflexivity|]. inversion F; subst.
  cbn [flat_map page_events app run_device]. rewrite run_chars by auto. rewrite run_pages by auto. reflexivity.
Qed.
Theorem all_events es : exists front css, es = map RenderChar front ++ flat_map page_events css.
Proof.
  induction es as [|e es (front & css & ->)]; [exists [], []; reflexivity|]. destruct e as [|c].
  - exists [], (front :: css). reflexivity.
  - exists (c :: front), css. reflexivity.
Qed.

Theorem bold_ok c b : In b (char_boxes c) ->
  (tb_bold b = true <-> exists u w, fn_name (ch_font c) = u ++ u8 "bold" ++ w \/ fn_name (ch_font c) = u ++ u8 "Bold" ++ w).
Proof.
  unfold char_boxes. destruct (visible _); [|intros []]. intros [<-|[]]. cbn [tb_bold]. unfold is_font_bold. rewrite Bool.orb_true_iff, !contains_sub_spec.
  split; [intros [(u & w & E)|(u & w & E)]; exists u, w; auto|intros (u & w & [E|E]); [left|right]; exists u, w; auto].
Qed.
