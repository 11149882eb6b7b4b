From Coq Require Import Lia Permutation.
From Coq Require Import ZifyBool ZifyNat ZifyN.
From Verif Require Import Unicode PyBase PyBaseFacts NumModel IdModel RefModel RefSpec TreeModel SemModel GramModel GramSpec PegModel PegSpec PegProofs PegProofs2 PegProofs3 PegProofs4 PegProofs18.
Local Open Scope Z_scope.

Lemma ends_span total {A} (p : parser A) : ends p -> ends (p_span total p).
Proof.
  intros P s x r H. unfold p_span in H. destruct (p (ws s)) as [[y t]|] eqn:E; [|discriminate]. injection H as _ <-.
  eapply suf_solid; [apply ws_suf|]. eapply P; eauto.
Qed.
Lemma takes_span total {A} (p : parser A) : takes p -> takes (p_span total p).
Proof.
  intros P s x r H. unfold p_span in H. destruct (p (ws s)) as [[y t]|] eqn:E; [|discriminate]. injection H as _ <-.
  eapply suf_trans; [apply ws_suf|]. eapply P; eauto.
Qed.
Lemma ends_part_rule total t range single suffix : takes range -> takes single -> ends suffix -> ends (g_part_rule total t range single suffix).
Proof.
  intros R S X. unfold g_part_rule. apply ends_rule, ends_bind.
  - apply takes_many1, takes_bind; [|intros; peg]. apply takes_or; apply takes_map; now apply takes_span.
  - intros l. now apply ends_bind_ret.
Qed.
Lemma ends_article_reference total : ends (g_article_reference total). Proof. apply ends_part_rule; peg. Qed.
Lemma ends_paragraph_reference total : ends (g_paragraph_reference total). Proof. apply ends_part_rule; peg. Qed.
Lemma ends_alphabetic_point_reference total : ends (g_alphabetic_point_reference total). Proof. apply ends_part_rule; peg. Qed.
Lemma ends_numeric_point_reference total : ends (g_numeric_point_reference total). Proof. apply ends_part_rule; peg. Qed.
Lemma ends_alphabetic_subpoint_reference total : ends (g_alphabetic_subpoint_reference total). Proof. apply ends_part_rule; peg. Qed.
Lemma ends_numeric_subpoint_reference total : ends (g_numeric_subpoint_reference total). Proof. apply ends_part_rule; peg. Qed.
Global Hint Resolve ends_article_reference ends_paragraph_reference ends_alphabetic_point_reference ends_numeric_point_reference
  ends_alphabetic_subpoint_reference ends_numeric_subpoint_reference : peg.
Lemma ends_any_point total : ends (g_any_point total). Proof. unfold g_any_point. peg. Qed.
Lemma ends_any_subpoint total : ends (g_any_subpoint total). Proof. unfold g_any_subpoint. peg. Qed.
Global Hint Resolve ends_any_point ends_any_subpoint : peg.
Lemma ends_with_subpoint total : ends (ref_with_subpoint total). Proof. unfold ref_with_subpoint. peg. Qed.
Global Hint Resolve ends_with_subpoint : peg.
Lemma ends_with_point total : ends (ref_with_point total). Proof. unfold ref_with_point. peg. Qed.
Global Hint Resolve ends_with_point : peg.
Lemma ends_with_paragraph total : ends (ref_with_paragraph total). Proof. unfold ref_with_paragraph. peg. Qed.
Global Hint Resolve ends_with_paragraph : peg.
Lemma ends_with_article_with_paragraph total : ends (ref_with_article_with_paragraph total). Proof. unfold ref_with_article_with_paragraph. peg. Qed.
Lemma ends_with_article_no_paragraph total : ends (ref_with_article_no_paragraph total). Proof. unfold ref_with_article_no_paragraph. peg. Qed.
Global Hint Resolve ends_with_article_with_paragraph ends_with_article_no_paragraph : peg.
Lemma ends_reference_of total p : ends p -> ends (reference_of total p).
Proof. intros P. unfold reference_of. apply ends_map. now apply ends_span. Qed.
Lemma ends_reference total : ends (g_reference_rule total). Proof. apply ends_reference_of. peg. Qed.
Global Hint Resolve ends_reference : peg.
Lemma takes_listed_reference total : takes (g_listed_reference total). Proof. unfold g_listed_reference. peg. Qed.
Global Hint Resolve takes_listed_reference : peg.
Lemma ends_insertion_token : ends g_insertion_token. Proof. unfold g_insertion_token. peg. Qed.
Global Hint Resolve ends_insertion_token : peg.
Lemma ends_az_article total : ends (g_az_article total). Proof. unfold g_az_article. peg. Qed.
Global Hint Resolve ends_az_article : peg.
Lemma ends_one_part p : ends p -> ends (one_part p). Proof. intros P. unfold one_part. peg. Qed.
Lemma ends_article_and_paragraph total p : ends p -> ends (g_article_and_paragraph total p).
Proof. intros P. unfold g_article_and_paragraph, one_part. peg. Qed.
Lemma ends_insertion_reference total : ends (g_insertion_reference total).
Proof.
  apply ends_reference_of. pose proof (ends_article_and_paragraph total _ (ends_article_reference total)) as A.
  pose proof (ends_article_and_paragraph total _ (ends_az_article total)) as B. unfold one_part. peg.
Qed.
Global Hint Resolve ends_insertion_reference : peg.
Lemma ends_lit_star w f : solid_word w = true -> (forall c, f c = true -> isspace_chr c = false) -> ends (p_re (RSeq (RLit w) (RStar f))).
Proof.
  intros W F s x r H. apply re_inv in H as [_ H]. change (match after_prefix w s with Some t => r_match (RStar f) Some t | None => None end = Some r) in H.
  destruct (after_prefix w s) as [t|] eqn:E; [|discriminate]. apply after_prefix_spec in E. subst s. rewrite match_star in H by discriminate. injection H as <-.
  pose proof (take_drop_while f t) as D. pose proof (take_while_all f t) as A. destruct (take_while f t) as [|c u] eqn:U.
  - cbn in D. rewrite D. now apply solid_word_app.
  - destruct (exists_last (l:=c :: u)) as (v & d & V); [discriminate|]. rewrite V in A, D.
    exists (w ++ v), d. rewrite <- D at 1. rewrite <- !app_assoc. split; [reflexivity|]. apply F. rewrite forallb_forall in A. apply A, in_app_iff. right. now left.
Qed.
Lemma ends_subtitle_token : ends g_subtitle_token.
Proof.
  unfold g_subtitle_token. apply ends_rule, ends_or; [peg|]. apply ends_bind_firm; [peg|]. intros _. apply firm_bind; [|intros; peg].
  apply firm_opt, firm_ends, ends_re_seq, ends_lit_star; [reflexivity|apply small_space].
Qed.
Global Hint Resolve ends_subtitle_token : peg.
Lemma ends_reference_with_subtitle total : ends (g_reference_with_subtitle total).
Proof. apply ends_reference_of. unfold one_part. peg. Qed.
Global Hint Resolve ends_reference_with_subtitle : peg.

Section Text.
Variable T : pystr.
Let total := Z.of_nat (length T).
Local Notation pos := (pos_of total).

Definition starts_at (a : Z) : Prop := exists u c v, T = u ++ c :: v /\ a = Z.of_nat (length u) /\ isspace_chr c = false.
Definition ends_at (b : Z) : Prop := exists u c v, T = u ++ c :: v /\ b = Z.of_nat (S (length u)) /\ isspace_chr c = false.
Lemma piece_of a b : starts_at a -> ends_at b -> a < b -> piece T a b.
Proof.
  intros (u & c & v & E & A & C) (u' & d & v' & E' & B & D) L. subst a b.
  assert (Lu : (length u <= length u')%nat) by lia.
  assert (U : exists m, u' = u ++ m).
  { exists (skipn (length u) u'). assert (F : firstn (length u) u' = u).
    { assert (X : firstn (length u) T = firstn (length u) u') by (rewrite E', firstn_app; replace (length u - length u')%nat with 0%nat by lia; cbn; now rewrite app_nil_r).
      rewrite <- X, E, firstn_app, firstn_all, Nat.sub_diag. cbn. now rewrite app_nil_r. }
    rewrite <- F at 1. symmetry. apply firstn_skipn. }
  destruct U as [m ->]. exists u, (m ++ [d]), v'. rewrite E', !app_length, !last_last. cbn [length]. repeat split.
  - now rewrite <- !app_assoc.
  - lia.
  - intros X. now destruct m.
  - assert (X : c :: v = m ++ d :: v') by (rewrite E, <- app_assoc in E'; now apply app_inv_head in E'). destruct m as [|x m]; cbn in X |- *; [exact D|]. injection X as <- _. exact C.
  - exact D.
Qed.
Lemma pos_mono s r : suf s r -> pos s <= pos r.
Proof. intros S. apply suf_length in S. unfold pos_of. lia. Qed.
Lemma pos_less s r : solid s r -> pos s < pos r.
Proof. intros S. apply solid_length in S. unfold pos_of. lia. Qed.
Lemma suf_pos s r : suf T s -> suf s r -> 0 <= pos s <= pos r.
Proof. intros S R. apply suf_length in S, R. unfold pos_of, total. lia. Qed.
Lemma start_here s c t : suf T s -> ws s = c :: t -> starts_at (pos (ws s)).
Proof.
  intros S W. assert (S' : suf T (ws s)) by (eapply suf_trans; [exact S|apply ws_suf]). destruct S' as [u E]. exists u, c, t.
  rewrite W in *. split; [exact E|]. split; [unfold pos_of, total; rewrite E, app_length; lia|]. eapply ws_head; eauto.
Qed.
Lemma end_here s r : suf T s -> solid s r -> ends_at (pos r).
Proof.
  intros [u E] (w & c & -> & C). exists (u ++ w), c, r. rewrite <- app_assoc. split; [exact E|]. split; [|exact C].
  unfold pos_of, total. rewrite E, !app_length. cbn. lia.
Qed.
(* a rule's span *)
Definition good_place (a b : Z) (sp : span) : Prop := a <= fst sp /\ fst sp < snd sp /\ snd sp <= b /\ starts_at (fst sp) /\ ends_at (snd sp).
Lemma span_good {A} (p : parser A) s x sp r : suf T s -> ends p -> p_span total p s = Some ((x, sp), r) ->
  p (ws s) = Some (x, r) /\ sp = (pos (ws s), pos r) /\ good_place (pos s) (pos r) sp.
Proof.
  intros S P H. unfold p_span in H. destruct (p (ws s)) as [[y t]|] eqn:E; [|discriminate]. injection H as <- <- <-. split; [reflexivity|]. split; [reflexivity|].
  pose proof (P _ _ _ E) as L. pose proof (pos_less _ _ L) as Lt. pose proof (pos_mono _ _ (ws_suf s)) as M. unfold good_place. cbn [fst snd].
  split; [exact M|]. split; [exact Lt|]. split; [lia|]. split.
  - destruct (ws s) as [|c w] eqn:W; [destruct L as ([|? ?] & c & L & _); discriminate|]. rewrite <- W. eapply start_here; eauto.
  - eapply end_here; [|exact L]. eapply suf_trans; [exact S|apply ws_suf].
Qed.

(** * Parts *)

Definition says (level : nat) (i : list pystr) : Prop := id_shape level (concat i) /\ written T (concat i).
Lemma reads_says level p s x r : reads_id level p -> suf T s -> p s = Some (x, r) -> says level x.
Proof. intros P [u E] H. apply P in H as [(w & -> & W) I]. split; [exact I|]. exists u, w, r. auto. Qed.

Definition item_read : Type := ((list pystr * list pystr) * span) + (list pystr * span).
Definition item_span (x : item_read) : span := match x with inl (_, sp) => sp | inr (_, sp) => sp end.
Definition item_says (level : nat) (x : item_read) : Prop := match x with inl ((a, b), _) => (says level a /\ says level b) /\ range_dash T | inr (i, _) => says level i end.
Inductive in_row (level : nat) : Z -> Z -> list item_read -> Prop :=
| ir_nil a b : a <= b -> in_row level a b []
| ir_cons a b x l : good_place a b (item_span x) -> item_says level x -> in_row level (snd (item_span x)) b l -> in_row level a b (x :: l).
Lemma in_row_before level a a' b l : a' <= a -> in_row level a b l -> in_row level a' b l.
Proof. intros L H. destruct H as [? ? H|? ? ? ? G I H]; constructor; auto; [lia|]. unfold good_place in *. intuition lia. Qed.
Lemma in_row_after level a b b' l : b <= b' -> in_row level a b l -> in_row level a b' l.
Proof. intros L H. induction H; constructor; auto; [lia|]. unfold good_place in *. intuition lia. Qed.

Definition ids_said (level : nat) (x : addition) : Prop := (forall i, In i (ids_of (ad_data x)) -> id_shape level i /\ written T i) /\ (ad_data x <> RNone) /\ (forall a b, ad_data x = RRange a b -> range_dash T).
Record fine_part (a b : Z) (p : g_part) : Prop := {
  fp_spans : Forall (fun x => inside a b x /\ starts_at (ad_start x) /\ ends_at (ad_end x)) (additions_of_part p);
  fp_order : ForallOrdPairs ranked (additions_of_part p);
  fp_ids : Forall (ids_said (level_of (gp_type p))) (additions_of_part p);
  fp_ends : NoDup (map ad_end (additions_of_part p)) /\ Forall (fun x => ad_end x < b) (additions_of_part p) }.

Definition singles_of (l : list item_read) : list g_single := flat_map (fun x => match x with inr (i, sp) => [mk_gsingle i sp] | inl _ => [] end) l.
Definition ranges_of (l : list item_read) : list g_range := flat_map (fun x => match x with inl ((a, b), sp) => [mk_grange a b sp] | inr _ => [] end) l.
Lemma row_ends t l : Permutation (map ad_end (additions_of_part (mk_gpart t (singles_of l) (ranges_of l)))) (map (fun x => snd (item_span x)) l).
Proof.
  unfold additions_of_part. cbn [gp_type gp_singles gp_ranges]. rewrite map_app, !map_map. cbn [ad_end].
  induction l as [|[[[i j] sp]|[i sp]] l IH]; [constructor| |]; cbn [singles_of ranges_of flat_map app map item_span]; fold (singles_of l) (ranges_of l).
  - cbn [gg_span]. apply Permutation_sym, Permutation_cons_app, Permutation_sym, IH.
  - cbn [gs_span]. now constructor.
Qed.
Lemma row_ends_distinct level a b l : in_row level a b l -> NoDup (map (fun x => snd (item_span x)) l) /\ Forall (fun x => a < snd (item_span x) <= b) l.
Proof.
  induction 1 as [|a b x l G I H [IH1 IH2]]; [split; constructor|]. unfold good_place in G. split.
  - cbn [map]. constructor; [|exact IH1]. intros X. apply in_map_iff in X as (y & E & Hy). rewrite Forall_forall in IH2. specialize (IH2 y Hy). lia.
  - constructor; [lia|]. revert IH2. apply Forall_impl. lia.
Qed.
Lemma row_fine t a b c l : b < c -> in_row (level_of t) a b l -> fine_part a c (mk_gpart t (singles_of l) (ranges_of l)).
Proof.
  intros bc H0. pose proof (row_ends_distinct _ _ _ _ H0) as [ND LT]. pose proof (in_row_after (level_of t) a b c l ltac:(lia) H0) as H.
  assert (EN : NoDup (map ad_end (additions_of_part (mk_gpart t (singles_of l) (ranges_of l)))) /\
    Forall (fun x => ad_end x < c) (additions_of_part (mk_gpart t (singles_of l) (ranges_of l)))).
  { split; [eapply Permutation_NoDup; [apply Permutation_sym, row_ends|exact ND]|]. apply Forall_forall. intros x Hx.
    apply (in_map ad_end) in Hx. eapply Permutation_in in Hx; [|apply row_ends]. apply in_map_iff in Hx as (y & <- & Hy).
    rewrite Forall_forall in LT. specialize (LT y Hy). lia. }
  clear ND LT H0 bc b. rename c into b.
  enough (X : Forall (fun x => inside a b x /\ starts_at (ad_start x) /\ ends_at (ad_end x)) (additions_of_part (mk_gpart t (singles_of l) (ranges_of l))) /\
    ForallOrdPairs ranked (additions_of_part (mk_gpart t (singles_of l) (ranges_of l))) /\
    Forall (ids_said (level_of t)) (additions_of_part (mk_gpart t (singles_of l) (ranges_of l)))) by (destruct X as (X1 & X2 & X3); split; assumption).
  clear EN.
  assert (M : forall x, In x l -> exists a', a <= a' /\ good_place a' b (item_span x) /\ item_says (level_of t) x).
  { induction H as [|a b x l G I H IH]; [intros ? []|]. intros y [<-|Hy]; [exists a; auto with zarith|].
    destruct (IH y Hy) as (a' & A & X). exists a'. split; [|exact X]. unfold good_place in G. lia. }
  assert (AD : forall z, In z (additions_of_part (mk_gpart t (singles_of l) (ranges_of l))) -> exists x, In x l /\ ad_type z = t /\ (ad_start z, ad_end z) = item_span x /\
    match x with inr (i, _) => ad_data z = RId (concat i) | inl ((i, j), _) => ad_data z = RRange (concat i) (concat j) end).
  { intros z Hz. unfold additions_of_part in Hz. cbn [gp_type gp_singles gp_ranges] in Hz. apply in_app_iff in Hz as [Hz|Hz]; apply in_map_iff in Hz as (y & <- & Hy);
      unfold singles_of, ranges_of in Hy; apply in_flat_map in Hy as (x & Hx & Hy); exists x; (split; [exact Hx|]); destruct x as [[[i j] [u v]]|[i [u v]]]; cbn in Hy; try contradiction; (destruct Hy as [<-|[]]; cbn; auto). }
  refine (conj _ (conj _ _)); cbn [gp_type].
  - apply Forall_forall. intros z Hz. destruct (AD z Hz) as (x & Hx & _ & Sp & _). destruct (M x Hx) as (a' & A & (G1 & G2 & G3 & G4 & G5) & _).
    rewrite <- Sp in *. cbn [fst snd] in *. unfold inside. repeat split; auto; lia.
  - unfold additions_of_part. cbn [gp_type gp_singles gp_ranges]. clear M AD.
    assert (ST : forall y, In y (singles_of l) -> a <= fst (gs_span y)).
    { induction H as [|a b x l G I H IH]; [intros ? []|]. intros y Hy. cbn in Hy. apply in_app_iff in Hy as [Hy|Hy].
      - destruct x as [[[i j] sp]|[i sp]]; [destruct Hy|]. destruct Hy as [<-|[]]. cbn. apply G.
      - apply IH in Hy. unfold good_place in G. lia. }
    assert (RR : forall x : addition, ad_type x = t -> Forall (ranked x) (map (fun r => mk_add t (RRange (concat (gg_start r)) (concat (gg_end r))) (fst (gg_span r)) (snd (gg_span r))) (ranges_of l))).
    { intros x Tx. apply Forall_map, Forall_forall. intros r _. unfold ranked. cbn [ad_type ad_data]. rewrite Tx. repeat split; [lia|lia|discriminate]. }
    revert RR. generalize (ranges_of l). intros rl RR.
    assert (RO : ForallOrdPairs ranked (map (fun r => mk_add t (RRange (concat (gg_start r)) (concat (gg_end r))) (fst (gg_span r)) (snd (gg_span r))) rl)).
    { clear RR. induction rl as [|r rl IH]; [constructor|]. cbn [map]. constructor; [|exact IH]. apply Forall_map, Forall_forall. intros q _.
      unfold ranked. cbn [ad_type ad_data]. repeat split; [lia|lia|discriminate]. }
    clear ST. induction H as [|a b x l G I H IH]; [exact RO|]. destruct x as [[[i j] sp]|[i sp]]; [exact IH|].
    cbn [singles_of flat_map app map]. fold (singles_of l). constructor; [|exact IH]. apply Forall_app. split; [|now apply RR].
    apply Forall_map, Forall_forall. intros y Hy. unfold ranked. cbn [ad_type ad_data ad_start]. repeat split; [lia|lia|]. intros _ _ _ _.
    assert (ST : forall y, In y (singles_of l) -> snd sp <= fst (gs_span y)).
    { clear -H. cbn in H. revert H. generalize (snd sp). clear. intros a H. induction H as [|a b x l G I H IH]; [intros ? []|]. intros y Hy. cbn in Hy. apply in_app_iff in Hy as [Hy|Hy].
      - destruct x as [[[i' j] q]|[i' q]]; [destruct Hy|]. destruct Hy as [<-|[]]. cbn. apply G.
      - apply IH in Hy. unfold good_place in G. lia. }
    specialize (ST y Hy). unfold good_place in G. cbn in G |- *. lia.
  - apply Forall_forall. intros z Hz. destruct (AD z Hz) as (x & Hx & _ & _ & D). destruct (M x Hx) as (_ & _ & _ & I). refine (conj _ (conj _ _)).
    + intros i Hi. destruct x as [[[j k] sp]|[j sp]]; cbn in I; rewrite D in Hi; cbn in Hi; [destruct I as [[I1 I2] _]; destruct Hi as [<-|[<-|[]]]|destruct Hi as [<-|[]]]; assumption.
    + destruct x as [[[j k] sp]|[j sp]]; rewrite D; discriminate.
    + intros i j E. destruct x as [[[j' k] sp]|[j' sp]]; rewrite D in E; [apply I|discriminate].
Qed.

Definition reads_range (level : nat) (p : parser (list pystr * list pystr)) : Prop := forall s a b r, suf T s -> p s = Some ((a, b), r) -> (says level a /\ says level b) /\ range_dash T.
Definition reads_single (level : nat) (p : parser (list pystr)) : Prop := forall s a r, suf T s -> p s = Some (a, r) -> says level a.
Section Part.
Context (t : part_type) (range : parser (list pystr * list pystr)) (single : parser (list pystr)) (suffix : parser pystr).
Hypotheses (R : reads_range (level_of t) range) (S : reads_single (level_of t) single) (ER : ends range) (ES : ends single) (EX : ends suffix).
Let one : parser item_read := x <~ (p_map inl (p_span total range) <|> p_map inr (p_span total single)) ;; g_separator ;~ p_ret x.
Lemma one_takes : takes one.
Proof. unfold one. apply takes_bind; [|intros; peg]. apply takes_or; apply takes_map, takes_span, takes_ends; assumption. Qed.
Lemma one_read s x r : suf T s -> one s = Some (x, r) -> good_place (pos s) (pos r) (item_span x) /\ item_says (level_of t) x.
Proof.
  intros Su H. unfold one in H. apply bind_inv in H as (y & s1 & Y & H). apply bind_inv in H as (u & s2 & U & H). apply ret_inv in H as [-> ->].
  assert (G : good_place (pos s) (pos s1) (item_span y) /\ item_says (level_of t) y).
  { apply or_inv in Y as [Y|[_ Y]]; apply map_inv in Y as ([z sp] & Z & ->).
    - apply span_good in Z as (Z & _ & G); [|exact Su|exact ER]. split; [exact G|]. cbn. destruct z as [i j]. eapply R; [|exact Z]. eapply suf_trans; [exact Su|apply ws_suf].
    - apply span_good in Z as (Z & _ & G); [|exact Su|exact ES]. split; [exact G|]. cbn. eapply S; [|exact Z]. eapply suf_trans; [exact Su|apply ws_suf]. }
  destruct G as [G I]. split; [|exact I]. apply takes_separator in U. apply pos_mono in U. unfold good_place in *. intuition lia.
Qed.
Lemma rounds_read n : forall s l r, suf T s -> p_rounds n one s = (l, r) -> in_row (level_of t) (pos s) (pos r) l.
Proof.
  induction n as [|n IH]; intros s l r Su H; cbn [p_rounds] in H; [injection H as <- <-; constructor; lia|].
  destruct (one s) as [[x s']|] eqn:O; [|injection H as <- <-; constructor; lia].
  destruct (p_rounds n one s') as [l' r'] eqn:Q. injection H as <- <-. assert (Su' : suf T s') by (eapply suf_trans; [exact Su|eapply one_takes; eauto]).
  pose proof (rounds_suf one one_takes n s' l' r' Q) as Rr. apply pos_mono in Rr. apply IH in Q; [|exact Su']. apply one_read in O as [G I]; [|exact Su].
  constructor; [unfold good_place in *; intuition lia|exact I|]. eapply in_row_before; [|exact Q]. apply G.
Qed.
Lemma part_fine s p r : suf T s -> g_part_rule total t range single suffix s = Some (p, r) -> fine_part (pos s) (pos r) p /\ gp_type p = t.
Proof.
  intros Su H. unfold g_part_rule, p_rule in H. assert (Sw : suf T (ws s)) by (eapply suf_trans; [exact Su|apply ws_suf]).
  apply bind_inv in H as (l & s1 & L & H). apply bind_inv in H as (y & s2 & Y & H). apply ret_inv in H as [-> ->]. split; [|reflexivity].
  fold one in L. apply row_fine with (b := pos s1); [exact (pos_less _ _ (EX _ _ _ Y))|]. clear Y y s2. unfold p_many1 in L. apply bind_inv in L as (x & s3 & X & L). apply bind_inv in L as (m & s4 & M & L).
  apply ret_inv in L as [-> ->]. unfold p_many in M. injection M as M'.
  assert (S3 : suf T s3) by (eapply suf_trans; [exact Sw|eapply one_takes; eauto]).
  pose proof (rounds_suf one one_takes _ _ _ _ M') as Q. apply pos_mono in Q. apply rounds_read in M'; [|exact S3]. apply one_read in X as [G I]; [|exact Sw].
  pose proof (pos_mono _ _ (ws_suf s)) as Ws. constructor; [unfold good_place in *; intuition lia|exact I|].
  eapply in_row_before; [apply G|exact M'].
Qed.
End Part.
End Text.
