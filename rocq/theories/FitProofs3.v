From Coq Require Import Permutation Sorted Floats.SpecFloat.
From Verif Require Import PyBase PyBaseFacts IdModel IdSpec LineModel DateModel RefModel RefSpec TreeModel TreeSpec TreeProofs TreeProofs2 StructModel StructSpec StructPatterns StructProofs StructProofs2 StructProofs3 StructProofs5 LineProofs
  SemModel SemSpec SemProofs SemProofs2 SemProofs4 SemProofs6 HtmlModel HtmlSpec HtmlProofs5 D2oHunSpec GramModel GramProofs3 PegModel GazModel PipeSpec FitSpec FitProofs FitProofs2.
Local Open Scope Z_scope.

(** * Dates of analyses and of the gazette *)

Ltac binds E := repeat match type of E with bind _ _ = Ok _ => let x := fresh in let H := fresh in apply bind_ok in E as (x & H & E) end.
Lemma mapM_each {A B} (f : A -> res B) (Q : B -> Prop) l r : (forall x y, f x = Ok y -> Q y) -> mapM f l = Ok r -> Forall Q r.
Proof. intros H. apply (mapM_forall f (fun _ => True)); [intros x y _; apply H|apply Forall_forall; auto]. Qed.
Lemma flat_mapM_each {A B} (f : A -> res (list B)) (Q : B -> Prop) l : forall r, (forall x y, f x = Ok y -> Forall Q y) -> flat_mapM f l = Ok r -> Forall Q r.
Proof.
  induction l as [|x l IH]; intros r H E; cbn [flat_mapM] in E; [injection E as <-; constructor|].
  apply bind_ok in E as (y & Ey & E). apply bind_ok in E as (z & Ez & E). injection E as <-. apply Forall_app. eauto.
Qed.
Lemma convert_amendment_dates x y s : convert_amendment_and_insertion x y = Ok s -> dates_of s = [].
Proof.
  unfold convert_amendment_and_insertion. intros E.
  repeat match type of E with
  | bind _ _ = Ok _ => let z := fresh in let H := fresh in apply bind_ok in E as (z & H & E)
  | (let '(_, _) := ?z in _) = Ok _ => destruct z
  | match ?z with _ => _ end = Ok _ => destruct z; try discriminate E
  end; injection E as <-; reflexivity.
Qed.
Lemma node_real n l : convert_single_node n = Ok l -> Forall real_conversion l.
Proof.
  assert (S : forall r l, (forall x, r = Ok x -> Forall (fun s => dates_of s = []) x) -> semantics r = Ok l -> Forall real_conversion l).
  { intros r l' R. apply semantics_real. intros x Ex. apply no_dates. auto. }
  destruct n; cbn [convert_single_node]; intros E.
  - exact (outgoings_real _ _ E).
  - apply bind_ok in E as (x & _ & E). injection E as <-. apply Forall_map, Forall_forall. intros y _. exact Logic.I.
  - eapply both_real; [| |exact E]; intros x X; [exact (outgoings_real _ _ X)|]. eapply S; [|exact X]. clear. intros x E. unfold block_to_block in E.
    apply bind_ok in E as (i & _ & E). apply bind_ok in E as (am & _ & E). apply bind_ok in E as (ins & _ & E). destruct am as [u|], ins as [v|].
    + apply bind_ok in E as (s & Es & E). injection E as <-. constructor; [exact (convert_amendment_dates _ _ _ Es)|constructor].
    + injection E as <-. repeat constructor.
    + injection E as <-. repeat constructor.
    + injection E as <-. constructor.
  - eapply S; [|exact E]. clear. intros x E. unfold subtitle_to_block in E.
    apply bind_ok in E as (i & _ & E). apply bind_ok in E as (sr & _ & E). apply bind_ok in E as (am & _ & E). apply bind_ok in E as (ins & _ & E).
    assert (X : forall r b s, subtitle_block sr r b = Ok s -> dates_of s = []).
    { intros r b s H. unfold subtitle_block in H. destruct r as [r|]; [|discriminate]. apply bind_ok in H as (p & _ & H). injection H as <-. reflexivity. }
    destruct am as [u|], ins as [v|]; try discriminate E; apply bind_ok in E as (s & Es & E); injection E as <-; constructor; eauto.
  - eapply S; [|exact E]. clear. intros x E. unfold structural_to_block in E. apply bind_ok in E as (i & _ & E).
    destruct amended, inserted; try discriminate E; apply bind_ok in E as (r & _ & E); injection E as <-; repeat constructor.
  - eapply both_real; [| |exact E]; intros x X; [|exact (outgoings_real _ _ X)]. eapply semantics_real; [|exact X]. intros y Y. exact (enforcement_real _ _ _ _ _ _ Y).
  - eapply both_real; [| |exact E]; intros x X; [|exact (outgoings_real _ _ X)]. eapply S; [|exact X]. clear. intros x E. unfold text_to_text in E.
    apply bind_ok in E as (i & _ & E). apply bind_ok in E as (os & _ & E). eapply flat_mapM_each; [|exact E]. intros o y. cbv beta. apply mapM_each. intros [u v] s H.
    apply bind_ok in H as (u' & _ & H). apply bind_ok in H as (v' & _ & H). injection H as <-. reflexivity.
  - eapply both_real; [| |exact E]; intros x X; [|exact (outgoings_real _ _ X)]. eapply S; [|exact X]. clear. intros x E. unfold title_to_title in E.
    apply bind_ok in E as (i & _ & E). apply bind_ok in E as (u & _ & E). apply bind_ok in E as (v & _ & E). injection E as <-. repeat constructor.
  - eapply both_real; [| |exact E]; intros x X; [|exact (outgoings_real _ _ X)]. eapply S; [|exact X]. clear. intros x E. unfold repeal_to_repeal in E.
    apply bind_ok in E as (i & _ & E). apply bind_ok in E as (os & _ & E). eapply flat_mapM_each; [|exact E]. intros o y H. destruct texts as [|t ts].
    + injection H as <-. repeat constructor.
    + eapply mapM_each; [|exact H]. intros q s Hq. apply bind_ok in Hq as (t' & _ & Hq). injection Hq as <-. reflexivity.
  - eapply both_real; [| |exact E]; intros x X; [|exact (outgoings_real _ _ X)]. eapply S; [|exact X]. clear. intros x E. unfold structural_repeal_to_repeal in E.
    apply bind_ok in E as (i & _ & E). apply bind_ok in E as (r & _ & E). injection E as <-. repeat constructor.
  - injection E as <-. constructor.
Qed.
Lemma analyzer_dates parse : real_dates (analyzer_of parse).
Proof.
  intros text a s d A I D. unfold analyzer_of in A. destruct (parse text) as [t|]; [|discriminate]. destruct (convert_depth_first t) as [l|] eqn:E; [|discriminate].
  injection A as <-. cbn [an_semantic] in I. rewrite depth_first in E. assert (F : Forall real_conversion l) by (eapply flat_mapM_each; [|exact E]; intros x y; apply node_real).
  unfold semantic_data_of in I. apply in_flat_map in I as (c & Ic & I). rewrite Forall_forall in F. specialize (F c Ic). destruct c; cbn in I; try contradiction. destruct I as [<-|[]].
  cbn in F. rewrite Forall_forall in F. auto.
Qed.

Lemma header_date pages k : In k (g_items (header_extractor pages)) -> real_date (is_date k).
Proof.
  unfold header_extractor. destruct (is_magyar_kozlony pages) as [[]|]; cbn [g_items]; try (intros []; fail). destruct (nth_error _ 3) as [l|]; [|intros []].
  destruct (from_hungarian_text (l_content l)) as [d|] eqn:E; [|intros []]. intros [<-|[]]. cbn [is_date]. unfold from_hungarian_text in E.
  destruct (split_chr 32 _) as [|y [|m [|dd []]]]; try discriminate E. apply bind_ok in E as (y' & _ & E). apply bind_ok in E as (m' & _ & E). apply bind_ok in E as (d' & _ & E). exact (Date_real _ _ _ _ E).
Qed.
Lemma section_date d pages : forall cur s, In s (g_items (section_loop d pages cur)) -> ls_date s = d.
Proof.
  assert (Y : forall t c s, In s (yield_section d t c) -> ls_date s = d).
  { intros t c s. unfold yield_section. destruct (section_wanted t); [intros [<-|[]]; reflexivity|intros []]. }
  induction pages as [|p rest IH]; intros cur s I; cbn [section_loop] in I.
  - destruct cur as [[t c]|]; [exact (Y _ _ _ I)|destruct I].
  - destruct (hp_lines p) as [|first others]; [exact (IH _ _ I)|]. destruct (is_section_title _); destruct cur as [[t c]|]; try exact (IH _ _ I); try (destruct I; fail).
    destruct (str_eqb _ _); [exact (IH _ _ I)|]. cbn [g_items] in I. apply in_app_iff in I as [I|I]; [exact (Y _ _ _ I)|exact (IH _ _ I)].
Qed.
Lemma law_date d ls : forall m x, In x (g_items (law_loop d m ls)) -> lw_date x = d.
Proof.
  induction ls as [|l ls IH]; intros m x I; cbn [law_loop] in I; [destruct I|]. destruct (feed_line d m l) as [[m' r]|] eqn:F; [|destruct I].
  cbn [g_items] in I. apply in_app_iff in I as [I|I]; [|exact (IH _ _ I)]. destruct r as [t|]; [|destruct I]. destruct I as [<-|[]].
  assert (BA : forall m, body_after d m l = (m', Some t) -> lw_date t = d).
  { intros m0. unfold body_after. cbv zeta. destruct (_ <? _)%nat; [discriminate|]. destruct (last_three _) as [[[a b] c]|]; [|discriminate].
    destruct (_ && _); [|discriminate]. intros [= _ <-]. reflexivity. }
  unfold feed_line in F. destruct (m_state m).
  - discriminate.
  - discriminate.
  - cbv zeta in F. apply bind_ok in F as (c & _ & F). discriminate.
  - apply bind_ok in F as (f & _ & F). destruct f; [discriminate|]. injection F as F. exact (BA _ F).
  - injection F as F. exact (BA _ F).
Qed.
Lemma gazette_dates pages laws : gazette_laws pages laws -> Forall (fun x => real_date (lw_date x)) laws.
Proof.
  intros [p _|p k ss ls H S F]; [constructor|]. apply Forall_forall. intros x I. apply in_concat in I as (l & Il & I).
  destruct (forall2_in_r _ _ _ _ F Il) as (s & Es). 
  assert (Is : exists s, In s ss /\ law_extractor s = mk_gen l None).
  { clear - F Il. induction F as [|a b ss ls E F IH]; [destruct Il|]. destruct Il as [<-|Il]; [exists a; split; [now left|exact E]|]. destruct (IH Il) as (s & X & Y). exists s. split; [now right|exact Y]. }
  clear s Es. destruct Is as (s & Is & Es). unfold law_extractor in Es. assert (D : lw_date x = ls_date s) by (eapply law_date; rewrite Es; exact I).
  unfold section_extractor in S. rewrite D, (section_date (is_date k) (is_pages k) None s) by (rewrite S; exact Is). apply (header_date p). rewrite H. now left.
Qed.

(** * Numbers of parts of lines *)

Lemma shr_1_pos mrs : 0 <= shr_m mrs -> 0 <= shr_m (shr_1 mrs).
Proof. destruct mrs as [m r s]. cbn. destruct m as [|[]|]; cbn; lia. Qed.
Lemma iter_shr_pos p mrs : 0 <= shr_m mrs -> 0 <= shr_m (SpecFloat.iter_pos shr_1 p mrs).
Proof. revert mrs. induction p; intros mrs H; cbn [SpecFloat.iter_pos]; auto using shr_1_pos. Qed.
Lemma shr_fexp_pos prec emax m e l : 0 <= m -> 0 <= shr_m (fst (shr_fexp prec emax m e l)).
Proof.
  intros H. unfold shr_fexp, shr. assert (X : 0 <= shr_m (shr_record_of_loc m l)) by (destruct l as [|[]]; exact H).
  destruct (fexp _ _ _ - e); cbn [fst]; auto using iter_shr_pos.
Qed.
Lemma round_pos m l : 0 <= m -> 0 <= round_nearest_even m l.
Proof. intros H. unfold round_nearest_even. destruct l as [|[]]; try (destruct (Z.even m)); lia. Qed.
Lemma binary_round_aux_number prec emax s m e l : 0 <= m -> binary_round_aux prec emax s m e l <> S754_nan.
Proof.
  intros H. unfold binary_round_aux. pose proof (shr_fexp_pos prec emax m e l H) as X. destruct (shr_fexp prec emax m e l) as [mrs e']. cbn [fst] in X.
  pose proof (shr_fexp_pos prec emax _ e' loc_Exact (round_pos (shr_m mrs) (loc_of_shr_record mrs) X)) as Y.
  destruct (shr_fexp prec emax (round_nearest_even _ _) e' loc_Exact) as [mrs' e'']. cbn [fst] in Y. destruct (shr_m mrs'); [discriminate| |lia].
  destruct (Zle_bool _ _); discriminate.
Qed.
Lemma binary_normalize_number prec emax m e s : binary_normalize prec emax m e s <> S754_nan.
Proof.
  unfold binary_normalize. destruct m; [discriminate| |]; unfold binary_round; destruct (shl_align _ _ _); apply binary_round_aux_number; lia.
Qed.
Definition number (x : pyfloat) : Prop := x <> S754_nan.
Lemma f_add_finite x y : number x -> finite y -> number (f_add x y).
Proof.
  unfold f_add, number. destruct x as [s|s| |s m e], y as [s'|s'| |s' m' e']; cbn [finite SFadd]; try contradiction; try congruence; try discriminate.
  - intros _ _. destruct (Bool.eqb s s'); discriminate.
  - intros _ _. apply binary_normalize_number.
Qed.
Lemma f_add_comm_finite x y : finite x -> number y -> number (f_add x y).
Proof.
  unfold f_add, number. destruct x as [s|s| |s m e], y as [s'|s'| |s' m' e']; cbn [finite SFadd]; try contradiction; try congruence; try discriminate.
  - intros _ _. destruct (Bool.eqb s s'); discriminate.
  - intros _ _. apply binary_normalize_number.
Qed.

(* numbers up to 2^400 are floats *)
Lemma digits2_bound p : forall k, Zpos p < 2 ^ k -> Zpos (digits2_pos p) <= k.
Proof.
  induction p as [p IH|p IH|]; intros k H; cbn [digits2_pos]; [| |destruct k; cbn in H; lia];
    (assert (K : 1 <= k) by (destruct (Z.leb_spec 1 k); [assumption|]; assert (2 ^ k <= 2 ^ 0) by (apply Z.pow_le_mono_r; lia); change (2 ^ 0) with 1 in *; lia));
    (assert (E : 2 ^ k = 2 * 2 ^ (k - 1)) by (replace k with (1 + (k - 1)) at 1 by lia; rewrite Z.pow_add_r by lia; reflexivity));
    specialize (IH (k - 1)); lia.
Qed.
Lemma shr_1_small mrs : 0 <= shr_m mrs -> shr_m (shr_1 mrs) <= shr_m mrs.
Proof. destruct mrs as [m r s]. cbn. destruct m as [|[]|]; cbn; lia. Qed.
Lemma iter_shr_small p : forall mrs, 0 <= shr_m mrs -> shr_m (SpecFloat.iter_pos shr_1 p mrs) <= shr_m mrs.
Proof.
  induction p as [p IH|p IH|]; intros mrs H; cbn [SpecFloat.iter_pos]; [| |now apply shr_1_small].
  - pose proof (shr_1_small mrs H). pose proof (IH (shr_1 mrs) (shr_1_pos _ H)). pose proof (IH _ (iter_shr_pos p (shr_1 mrs) (shr_1_pos _ H))). lia.
  - pose proof (IH mrs H). pose proof (IH _ (iter_shr_pos p mrs H)). lia.
Qed.
Lemma Zdigits2_bound m k : 0 <= m < 2 ^ k -> 0 <= k -> Zdigits2 m <= k.
Proof. destruct m as [|p|p]; cbn [Zdigits2]; [lia| |lia]. intros [_ H] _. now apply digits2_bound. Qed.
(* after a shift the mantissa is not larger, and the exponent is at most a digit count away *)
Lemma shr_fexp_small m e l k : 0 <= m < 2 ^ k -> 0 <= k -> -1074 <= e ->
  shr_m (fst (shr_fexp prec64 emax64 m e l)) <= m /\ e <= snd (shr_fexp prec64 emax64 m e l) <= e + k.
Proof.
  intros H K E. unfold shr_fexp, shr. assert (X : shr_m (shr_record_of_loc m l) = m) by (destruct l as [|[]]; reflexivity).
  pose proof (Zdigits2_bound m k H K) as D. unfold fexp, emin, prec64, emax64. set (q := Z.max _ _ - e).
  assert (Q : q <= k) by (unfold q; lia). clearbody q. destruct q as [|q|q]; cbn [fst snd]; [lia| |lia].
  split; [|lia]. rewrite <- X at 2. apply iter_shr_small. lia.
Qed.
Lemma f_of_Z_finite z : Z.abs z < 2 ^ 300 -> finite (f_of_Z z).
Proof.
  intros H. unfold f_of_Z, binary_normalize. assert (B : forall s p, Zpos p < 2 ^ 300 -> finite (binary_round prec64 emax64 s p 0)).
  2: { destruct z as [|p|p]; [exact Logic.I|apply B; lia|apply B; lia]. }
  clear z H. intros s p H. pose proof (digits2_bound _ _ H) as D. unfold binary_round, shl_align.
  assert (A : forall m e, 0 <= m < 2 ^ 400 -> -1074 <= e <= 0 -> finite (binary_round_aux prec64 emax64 s m e loc_Exact)).
  { clear. intros m e M E. unfold binary_round_aux. pose proof (shr_fexp_pos prec64 emax64 m e loc_Exact (proj1 M)) as P1.
    pose proof (shr_fexp_small m e loc_Exact 400 M ltac:(lia) ltac:(lia)) as [S1 S2]. destruct (shr_fexp prec64 emax64 m e loc_Exact) as [mrs e']. cbn [fst snd] in *.
    pose proof (round_pos (shr_m mrs) (loc_of_shr_record mrs) P1) as R.
    assert (R2 : round_nearest_even (shr_m mrs) (loc_of_shr_record mrs) < 2 ^ 401).
    { assert (round_nearest_even (shr_m mrs) (loc_of_shr_record mrs) <= shr_m mrs + 1) by (unfold round_nearest_even; destruct (loc_of_shr_record mrs) as [|[]]; try destruct (Z.even _); lia).
      change (2 ^ 401) with (2 * 2 ^ 400). lia. }
    pose proof (shr_fexp_pos prec64 emax64 _ e' loc_Exact R) as P2. pose proof (shr_fexp_small _ e' loc_Exact 401 (conj R R2) ltac:(lia) ltac:(lia)) as [T1 T2].
    destruct (shr_fexp prec64 emax64 (round_nearest_even _ _) e' loc_Exact) as [mrs' e'']. cbn [fst snd] in *.
    destruct (shr_m mrs'); [exact Logic.I| |lia]. replace (Zle_bool e'' (emax64 - prec64)) with true; [exact Logic.I|]. symmetry. apply Z.leb_le. unfold emax64, prec64. lia. }
  set (x := fexp prec64 emax64 (Zpos (digits2_pos p) + 0) - 0).
  assert (X : -53 <= x <= 300) by (unfold x, fexp, emin, prec64, emax64; lia). replace (fexp prec64 emax64 (Zpos (digits2_pos p) + 0)) with x by (unfold x; lia). clearbody x.
  replace (x - 0) with x by lia. destruct x as [|q|q].
  - apply A; [|lia]. split; [lia|]. apply Z.lt_trans with (2 ^ 300); [exact H|reflexivity].
  - apply A; [|lia]. split; [lia|]. apply Z.lt_trans with (2 ^ 300); [exact H|reflexivity].
  - apply A; [|lia]. split; [lia|]. rewrite shift_pos_correct. change (Z.pow_pos 2 q) with (2 ^ Zpos q). apply Z.lt_le_trans with (2 ^ Zpos q * 2 ^ 300); [apply Z.mul_lt_mono_pos_l; [apply Z.pow_pos_nonneg; lia|exact H]|].
    rewrite <- Z.pow_add_r by lia. apply Z.pow_le_mono_r; lia.
Qed.
(* closed under taking parts of a line *)
Definition partly_measured (l : line) : Prop :=
  number (l_margin_right l) /\ match l_parts l with [] => True | p :: ps => number (p_dx p) /\ Forall (fun p => finite (p_dx p)) ps end /\
  20 * Z.of_nat (length (l_parts l)) < 2 ^ 300.
Lemma finite_number x : finite x -> number x.
Proof. destruct x; cbn; try contradiction; discriminate. Qed.
Lemma measured_partly l : measured l -> partly_measured l.
Proof. intros (M & F & L). split; [now apply finite_number|]. split; [|exact L]. destruct (l_parts l) as [|p ps]; [exact Logic.I|]. apply Forall_cons_iff in F as [F1 F2]. split; [now apply finite_number|exact F2]. Qed.
Lemma partly_numbers l : partly_measured l -> numbers l.
Proof. intros (M & F & _). split; [exact M|]. destruct (l_parts l) as [|p ps]; [constructor|]. destruct F as [F1 F2]. constructor; [exact F1|]. eapply Forall_impl; [|exact F2]. intros q. apply finite_number. Qed.
Lemma slice_skip_number ps : forall start x n k x' n' k', number x -> Forall (fun p => finite (p_dx p)) ps -> slice_skip ps start x n k = (x', n', k') -> number x' /\ (k <= k')%nat.
Proof.
  induction ps as [|p ps IH]; intros start x n k x' n' k' X F E; cbn [slice_skip] in E.
  - injection E as <- <- <-. auto.
  - apply Forall_cons_iff in F as [F1 F2]. destruct (n <? start); [|injection E as <- <- <-; auto].
    destruct (IH _ _ _ _ _ _ _ (f_add_finite x _ X F1) F2 E) as [A B]. split; [exact A|lia].
Qed.
Lemma partly_slice l i j q : partly_measured l -> l_slice l i j = Ok q -> partly_measured q.
Proof.
  intros (M & F & L). unfold l_slice. cbv zeta. assert (Z : partly_measured EMPTY_LINE) by (split; [discriminate|split; [exact Logic.I|reflexivity]]).
  destruct (_ && _); [intros [= <-]; repeat split; assumption|]. destruct (_ <=? _); [intros [= <-]; exact Z|].
  destruct (slice_skip (l_parts l) _ f_zero 0 O) as [[x n] k] eqn:K. destruct (skipn k (l_parts l)) as [|first rest] eqn:R; [intros [= <-]; exact Z|].
  destruct (negb _); [discriminate|]. destruct (slice_include _ _ _ _) as [inc jj] eqn:J. destruct (negb _); [discriminate|]. intros [= <-].
  apply slice_include_spec in J as (kk & c & Ekc & -> & -> & Hc & Hk). 
  assert (LK : (k + length (first :: rest) = length (l_parts l))%nat) by (rewrite <- R, skipn_length; destruct (Nat.le_gt_cases k (length (l_parts l))); [lia|]; rewrite skipn_all2 in R by lia; discriminate).
  destruct (l_parts l) as [|p ps] eqn:PS; [destruct k; discriminate R|]. destruct F as [F1 F2].
  assert (G : Forall (fun p => finite (p_dx p)) rest).
  { destruct k; cbn [skipn] in R; [injection R as _ <-; exact F2|]. apply (Forall_skipn' _ k) in F2. rewrite R in F2. now apply Forall_cons_iff in F2 as [_ F2]. }
  assert (SK : skipn (S k) (p :: ps) = rest) by (replace (S k) with (k + 1)%nat by lia; rewrite <- skipn_skipn', R; reflexivity).
  split; [|split]; cbn [l_margin_right l_parts].
  - apply f_add_finite; [exact M|]. apply f_of_Z_finite. apply (f_equal (@length LineModel.part)) in Ekc. rewrite app_length in Ekc. cbn [length] in *. lia.
  - split; [|unfold slice_nat; rewrite SK; apply Forall_firstn'; exact G]. destruct k as [|k].
    + cbn [slice_skip] in K. destruct (_ <? _); [|injection K as <- _; cbn [skipn] in R; injection R as <- _; exact F1].
      destruct (slice_skip_number _ _ _ _ _ _ _ _ (f_add_comm_finite f_zero _ Logic.I F1) F2 K) as [_ X]. lia.
    + assert (X : number x).
      { cbn [slice_skip] in K. destruct (_ <? _); [|discriminate K]. exact (proj1 (slice_skip_number _ _ _ _ _ _ _ _ (f_add_comm_finite f_zero _ Logic.I F1) F2 K)). }
      assert (FF : finite (p_dx first)) by (cbn [skipn] in R; apply (Forall_skipn' _ k) in F2; rewrite R in F2; now apply Forall_cons_iff in F2 as [F2 _]).
      destruct (f_truthy x); [now apply f_add_comm_finite|now apply finite_number].
  - unfold slice_nat. rewrite SK. cbn [length] in *. rewrite firstn_length. lia.
Qed.
