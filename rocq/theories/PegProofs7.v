From Coq Require Import Lia.
From Coq Require Import ZifyBool ZifyNat ZifyN.
From Verif Require Import Unicode PyBase PyBaseFacts NumModel IdModel RefModel RefSpec TreeModel SemModel GramModel GramSpec GramProofs3 PegModel PegSpec PegProofs PegProofs2 PegProofs3 PegProofs4 PegProofs5 PegProofs6.
Local Open Scope Z_scope.

(** * What the other rules leave *)

Lemma takes_quote_loop n : takes (quote_loop n).
Proof.
  induction n as [|n IH]; intros s x r H; [discriminate|]. cbn [quote_loop] in H. revert H.
  generalize (quote_loop n) IH. intros q Q H. assert (K : takes (p_rule (a <~ p_tok (u8 "„") ;; b <~ p_re (RStar c_not_quote) ;;
        l <~ p_many (q <~ q ;; r <~ p_re (RStar c_not_quote) ;; p_ret (Node [Node q; Leaf r])) ;; z <~ p_tok (u8 "”") ;; p_ret [Leaf a; Leaf b; Node l; Leaf z]))) by peg.
  exact (K _ _ _ H).
Qed.
Lemma takes_quote : takes g_quote_rule.
Proof. intros s x r H. eapply takes_quote_loop; exact H. Qed.
Global Hint Resolve takes_quote : peg.
Lemma ends_act_suffix : ends g_act_suffix. Proof. unfold g_act_suffix. peg. Qed.
Global Hint Resolve ends_act_suffix : peg.
Lemma ends_act_id total : ends (g_act_id total).
Proof. unfold g_act_id. apply ends_map, ends_span. peg. Qed.
Global Hint Resolve ends_act_id : peg.
Lemma ends_from_now_on : ends g_from_now_on. Proof. unfold g_from_now_on. peg. Qed.
Global Hint Resolve ends_from_now_on : peg.
Lemma takes_any_token : takes g_any_token. Proof. unfold g_any_token. peg. Qed.
Global Hint Resolve takes_any_token : peg.
Lemma ends_from_now_on_long total : ends (g_from_now_on_long total). Proof. unfold g_from_now_on_long. peg. Qed.
Global Hint Resolve ends_from_now_on_long : peg.
Lemma takes_act_reference total : takes (g_act_reference total).
Proof.
  unfold g_act_reference. pose proof (takes_span total _ (takes_ends _ ends_abbreviation)) as A. peg.
Qed.
Global Hint Resolve takes_act_reference : peg.
Lemma takes_compound total : takes (g_compound_reference total). Proof. unfold g_compound_reference. peg. Qed.
Global Hint Resolve takes_compound : peg.
Lemma takes_simple total : takes (g_any_simple_expression total). Proof. unfold g_any_simple_expression. peg. Qed.
Global Hint Resolve takes_simple : peg.
Lemma takes_act_title total : takes (g_act_title total). Proof. unfold g_act_title. peg. Qed.
Global Hint Resolve takes_act_title : peg.
Lemma takes_id_with_letter p : takes p -> takes (g_id_with_letter p). Proof. intros P. unfold g_id_with_letter. peg. Qed.
Lemma takes_id_number : takes (g_id_with_letter g_number). Proof. apply takes_id_with_letter. peg. Qed.
Lemma takes_id_roman : takes (g_id_with_letter g_roman). Proof. apply takes_id_with_letter. peg. Qed.
Lemma takes_suffix w : takes (p_tok w) -> takes (g_suffix w). Proof. intros P. unfold g_suffix, p_suffixed. peg. Qed.
Lemma takes_alcim : takes (g_suffix (u8 "alcím")). Proof. apply takes_suffix. peg. Qed.
Lemma takes_fejezet : takes (g_suffix (u8 "Fejezet")). Proof. apply takes_suffix. peg. Qed.
Lemma takes_resz : takes (g_suffix (u8 "Rész")). Proof. apply takes_suffix. peg. Qed.
Lemma takes_cim : takes (g_suffix (u8 "Cím")). Proof. apply takes_suffix. peg. Qed.
Global Hint Resolve takes_id_number takes_id_roman takes_alcim takes_fejezet takes_resz takes_cim : peg.
Lemma takes_book : takes g_book. Proof. unfold g_book. peg. Qed.
Global Hint Resolve takes_book : peg.
Lemma takes_after_article : takes g_after_article. Proof. unfold g_after_article. peg. Qed.
Lemma takes_before_article : takes g_before_article. Proof. unfold g_before_article. peg. Qed.
Lemma takes_subtitle_title : takes g_subtitle_title. Proof. unfold g_subtitle_title. peg. Qed.
Lemma takes_subtitle_number : takes g_subtitle_number. Proof. unfold g_subtitle_number. peg. Qed.
Lemma takes_chapter_number : takes g_chapter_number. Proof. unfold g_chapter_number. peg. Qed.
Lemma takes_part_number : takes g_part_number. Proof. unfold g_part_number. peg. Qed.
Lemma takes_title_number : takes g_title_number. Proof. unfold g_title_number. peg. Qed.
Global Hint Resolve takes_after_article takes_before_article takes_subtitle_title takes_subtitle_number takes_chapter_number takes_part_number takes_title_number : peg.
Lemma takes_any_structural : takes g_any_structural_reference. Proof. unfold g_any_structural_reference. peg. Qed.
Lemma takes_structural_position : takes g_structural_position. Proof. unfold g_structural_position. peg. Qed.
Lemma takes_title_insertion : takes g_title_insertion_with_book. Proof. unfold g_title_insertion_with_book. peg. Qed.
Lemma takes_the_act total : takes (g_the_act total). Proof. unfold g_the_act, g_upper_or_lower_az. peg. Qed.
Lemma takes_amendment_suffix : takes g_amendment_suffix. Proof. unfold g_amendment_suffix. peg. Qed.
Lemma takes_amendment_suffix_s : takes g_amendment_suffix_with_subtitle. Proof. unfold g_amendment_suffix_with_subtitle. peg. Qed.
Lemma takes_amendment_suffix_t : takes g_amendment_suffix_with_structural. Proof. unfold g_amendment_suffix_with_structural. peg. Qed.
Lemma takes_insertion_suffix : takes g_insertion_suffix. Proof. unfold g_insertion_suffix. peg. Qed.
Global Hint Resolve takes_any_structural takes_structural_position takes_title_insertion takes_the_act takes_amendment_suffix takes_amendment_suffix_s
  takes_amendment_suffix_t takes_insertion_suffix : peg.
Lemma takes_date : takes g_date_rule. Proof. unfold g_date_rule, g_month. peg. Qed.
Lemma takes_after_publication : takes g_after_publication.
Proof. unfold g_after_publication, g_after_proclamation, g_hungarian_ordinal, g_number_with_dot. peg. Qed.
Lemma takes_day_in_month : takes g_day_in_month.
Proof. unfold g_day_in_month, g_after_proclamation, g_hungarian_ordinal, g_number_with_dot. peg. Qed.
Global Hint Resolve takes_date takes_after_publication takes_day_in_month : peg.
Lemma takes_inline_repeal : takes g_inline_repeal. Proof. unfold g_inline_repeal. peg. Qed.
Global Hint Resolve takes_inline_repeal : peg.
Lemma takes_replaced : takes g_replaced. Proof. unfold g_replaced. peg. Qed.
Lemma takes_enters : takes g_enters. Proof. unfold g_enters. peg. Qed.
Global Hint Resolve takes_replaced takes_enters : peg.
Lemma takes_text_part : takes g_text_amendment_part. Proof. unfold g_text_amendment_part. peg. Qed.
Global Hint Resolve takes_text_part : peg.
Lemma ends_single_article total : ends (g_single_article_reference total).
Proof. unfold g_single_article_reference. apply ends_span. peg. Qed.
Lemma takes_single_article total : takes (g_single_article_reference total).
Proof. apply takes_ends, ends_single_article. Qed.
Lemma takes_repealed_act total : takes (g_repealed_act total). Proof. unfold g_repealed_act. peg. Qed.
Global Hint Resolve takes_single_article takes_repealed_act : peg.

(** * Abbreviations and numbers of acts *)

Lemma plus_split f k s u : r_match (RPlus f) k s = Some u -> exists w t, s = w ++ t /\ w <> [] /\ forallb f w = true /\ k t = Some u.
Proof.
  cbn [r_match]. revert u. induction s as [|c t IH]; intros u H; [discriminate|]. destruct (f c) eqn:F; [|discriminate].
  destruct ((fix go (s : pystr) : option pystr := match s with [] => None | c0 :: t0 => if f c0 then match go t0 with Some x => Some x | None => k t0 end else None end) t) as [x|] eqn:E.
  - injection H as <-. destruct (IH x eq_refl) as (w & t' & -> & N & A & K). exists (c :: w), t'. cbn [forallb]. rewrite F, A. repeat split; auto. discriminate.
  - exists [c], t. cbn [forallb]. rewrite F. repeat split; auto. discriminate.
Qed.
Lemma opt_split f k s u : r_match (ROpt f) k s = Some u -> k s = Some u \/ exists c t, s = c :: t /\ f c = true /\ k t = Some u.
Proof.
  cbn [r_match]. destruct s as [|c t]; [auto|]. destruct (f c) eqn:F; [|auto]. destruct (k t) as [x|] eqn:E; [|auto]. intros [= <-]. right. eauto.
Qed.
Lemma lit_split w k s u : r_match (RLit w) k s = Some u -> exists t, s = w ++ t /\ k t = Some u.
Proof. cbn [r_match]. destruct (after_prefix w s) as [t|] eqn:E; [|discriminate]. apply after_prefix_spec in E. eauto. Qed.
Lemma small_hun c : c_small c = true -> hun_small c.
Proof.
  unfold c_small, hun_small, is_small. intros H. apply orb_true_iff in H as [H|H]; [left; unfold c_az in H; lia|right; now apply in_str_in].
Qed.
Lemma capital_hun c : c_capital c = true -> hun_capital c.
Proof.
  unfold c_capital, hun_capital, is_capital. intros H. apply orb_true_iff in H as [H|H]; [left; unfold c_AZ in H; lia|right; now apply in_str_in].
Qed.
Lemma abbreviation_spells s x r : g_abbreviation_rule s = Some (x, r) -> ws s = x ++ r /\ abbreviation_shape x.
Proof.
  intros H. unfold g_abbreviation_rule, p_rule in H.
  assert (Sh : forall c w e, hun_capital c -> w <> [] -> forallb c_small w = true ->
    In e [u8 "."; u8 "tv."; u8 "vhr."; u8 " tv."; u8 " vhr."; u8 ".tv."; u8 ".vhr."; u8 ". tv."; u8 ". vhr."] -> abbreviation_shape (c :: w ++ e)).
  { intros c w e C N W E. exists c, w, e. repeat split; auto. rewrite forallb_forall in W. apply Forall_forall. intros d D. apply small_hun. auto. }
  assert (Re : forall rest, p_re (RSeq (RSet c_capital) (RSeq (RPlus c_small) rest)) (ws s) = Some (x, r) ->
    exists c w t, ws s = c :: w ++ t /\ hun_capital c /\ w <> [] /\ forallb c_small w = true /\ r_match rest Some t = Some r).
  { intros rest R. apply re_inv in R as [_ R]. change (match ws s with c :: t => if c_capital c then r_match (RPlus c_small) (r_match rest Some) t else None | [] => None end = Some r) in R.
    destruct (ws s) as [|c t]; [discriminate|]. destruct (c_capital c) eqn:C; [|discriminate]. apply plus_split in R as (w & t' & -> & N & W & R).
    exists c, w, t'. repeat split; auto. now apply capital_hun. }
  assert (Fin : forall c w e, ws s = c :: w ++ e ++ r -> hun_capital c -> w <> [] -> forallb c_small w = true ->
    In e [u8 "."; u8 "tv."; u8 "vhr."; u8 " tv."; u8 " vhr."; u8 ".tv."; u8 ".vhr."; u8 ". tv."; u8 ". vhr."] -> ws s = x ++ r -> abbreviation_shape x).
  { intros c w e E C N W I X. rewrite E in X. assert (X' : (c :: w ++ e) ++ r = x ++ r) by (cbn; now rewrite <- app_assoc). apply app_inv_tail in X'. subst x. auto. }
  apply or_inv in H as [H|[_ H]]; assert (X : ws s = x ++ r) by (apply re_inv in H; apply H); (split; [exact X|]); apply Re in H as (c & w & t & E & C & N & W & M).
  - cbn [r_match] in M. fold (r_match (ROpt (N.eqb 46)) (r_match (RSeq (ROpt (N.eqb 32)) (RAlt (RLit (u8 "tv.")) (RLit (u8 "vhr.")))) Some) t) in M.
    assert (M' : r_match (ROpt (N.eqb 46)) (r_match (RSeq (ROpt (N.eqb 32)) (RAlt (RLit (u8 "tv.")) (RLit (u8 "vhr.")))) Some) t = Some r) by exact M. clear M.
    assert (A : exists a t', t = a ++ t' /\ (a = [] \/ a = u8 ".") /\ r_match (RSeq (ROpt (N.eqb 32)) (RAlt (RLit (u8 "tv.")) (RLit (u8 "vhr.")))) Some t' = Some r).
    { apply opt_split in M' as [M|(d & t' & -> & D & M)]; [exists [], t; auto|]. apply N.eqb_eq in D. subst d. exists [46%N], t'. auto. }
    clear M'. destruct A as (a & t' & -> & A & M).
    assert (M' : r_match (ROpt (N.eqb 32)) (r_match (RAlt (RLit (u8 "tv.")) (RLit (u8 "vhr."))) Some) t' = Some r) by exact M. clear M.
    assert (B : exists b t'', t' = b ++ t'' /\ (b = [] \/ b = u8 " ") /\ r_match (RAlt (RLit (u8 "tv.")) (RLit (u8 "vhr."))) Some t'' = Some r).
    { apply opt_split in M' as [M|(d & t'' & -> & D & M)]; [exists [], t'; auto|]. apply N.eqb_eq in D. subst d. exists [32%N], t''. auto. }
    clear M'. destruct B as (b & t'' & -> & B & M). 
    assert (Z : exists e, t'' = e ++ r /\ (e = u8 "tv." \/ e = u8 "vhr.")).
    { change (match r_match (RLit (u8 "tv.")) Some t'' with Some x => Some x | None => r_match (RLit (u8 "vhr.")) Some t'' end = Some r) in M.
      destruct (r_match (RLit (u8 "tv.")) Some t'') as [y|] eqn:Y.
      - injection M as ->. apply lit_split in Y as (z & -> & [= ->]). exists (u8 "tv."). auto.
      - apply lit_split in M as (z & -> & [= ->]). exists (u8 "vhr."). auto. }
    destruct Z as (e & -> & Z). apply (Fin c w (a ++ b ++ e)); auto; [now rewrite <- !app_assoc|].
    destruct A as [->| ->], B as [->| ->], Z as [->| ->]; cbn; auto 12.
  - apply lit_split in M as (z & -> & [= ->]). apply (Fin c w (u8 ".")); auto. now left.
Qed.

Section Text.
Variable T : pystr.
Let total := Z.of_nat (length T).
Local Notation pos := (pos_of total).
Definition abbreviation_in (s : pystr) : Prop := (exists u w, T = u ++ s ++ w) /\ abbreviation_shape s.
Lemma abbreviation_at s x r : suf T s -> g_abbreviation_rule s = Some (x, r) -> abbreviation_in x.
Proof.
  intros S H. apply abbreviation_spells in H as [E Sh]. split; [|exact Sh]. apply suf_ws in S. destruct S as [u U]. exists u, r. now rewrite U, E.
Qed.
Definition good_sp (sp : span) : Prop := starts_at T (fst sp) /\ ends_at T (snd sp) /\ fst sp < snd sp.
Record fine_act (a : g_act_ref) : Prop := {
  fa_id : forall i, get_act_id a = Ok i -> act_named T i;
  fa_span : forall sp, get_act_id_pos a = Ok sp -> good_sp sp;
  fa_now : forall s, ga_from_now_on a = Some s -> abbreviation_in s }.

Lemma suffix_spells s x r : g_act_suffix s = Some (x, r) -> exists e w v, s = w ++ v /\ suf v r /\ In e [u8 "törvén"; u8 "tv."] /\ squeeze w = e.
Proof.
  intros H. unfold g_act_suffix, p_rule in H. apply or_inv in H as [H|[_ H]]; [apply or_inv in H as [H|[_ H]]|].
  - apply tok_inv in H as (_ & E & _). rewrite ws_idem in E. apply (squeeze_ws s (121%N :: r) (u8 "törvén")) in E as (v & -> & V).
    + exists (u8 "törvén"), v, (121%N :: r). split; [reflexivity|]. split; [now exists [121%N]|]. split; [now left|exact V].
    + repeat constructor.
  - apply re_inv in H as [_ H]. assert (H' : r_match (RLit (u8 "törvén")) (r_match (RPlus c_small) Some) (ws s) = Some r) by exact H. clear H.
    apply lit_split in H' as (t & E & H). apply plus_split in H as (w & t' & -> & _ & _ & [= ->]).
    apply (squeeze_ws s (w ++ r) (u8 "törvén")) in E as (v & -> & V); [|repeat constructor].
    exists (u8 "törvén"), v, (w ++ r). split; [reflexivity|]. split; [now exists w|]. split; [now left|exact V].
  - apply tok_inv in H as (_ & E & _). rewrite ws_idem in E. apply (squeeze_ws s r (u8 "tv.")) in E as (v & -> & V); [|repeat constructor].
    exists (u8 "tv."), v, r. split; [reflexivity|]. split; [apply suf_refl|]. split; [right; now left|exact V].
Qed.
Lemma roman_spells s x r : g_roman s = Some (x, r) -> (exists w, s = w ++ r /\ squeeze w = x) /\ roman_letters x.
Proof.
  intros H. unfold g_roman, p_rule in H. apply plus_inv in H as (E & N & A & _). split.
  - apply squeeze_ws in E; [exact E|]. eapply forallb_solid; [|exact A]. unfold c_roman. intros c C. eapply in_str_space; [|exact C]. reflexivity.
  - split; [exact N|]. rewrite forallb_forall in A. apply Forall_forall. intros c C. apply in_str_in. now apply A.
Qed.
Lemma act_id_fine s y n sp r : suf T s -> g_act_id total s = Some ((y, n, sp), r) -> act_named T (y ++ u8 ". évi " ++ n ++ u8 ". törvény") /\ good_sp sp.
Proof.
  intros S H. unfold g_act_id in H. apply map_inv in H as ([[y' n'] sp'] & H & E). injection E as -> -> ->.
  apply span_good in H as (H & -> & (G1 & G2 & G3 & G4 & G5)); [|exact S|peg]. split; [|split; auto]. apply suf_ws in S. destruct S as [u U].
  revert U. generalize (ws s) H. clear. rename y' into y, n' into n. intros s H U.
  apply bind_inv in H as (y' & s1 & Y & H). apply bind_inv in H as (d & s2 & D & H). apply bind_inv in H as (e & s3 & E & H). apply bind_inv in H as (n' & s4 & N & H).
  apply bind_inv in H as (d' & s5 & D' & H). apply bind_inv in H as (e' & s6 & E' & H). apply ret_inv in H as [H ->]. injection H as -> ->.
  apply number_spells in Y as [(w1 & -> & W1) Y]. apply tok_spells in D as (_ & w2 & -> & W2); [|reflexivity]. apply tok_spells in E as (_ & w3 & -> & W3); [|reflexivity].
  apply roman_spells in N as [(w4 & -> & W4) N]. apply tok_spells in D' as (_ & w5 & -> & W5); [|reflexivity]. apply suffix_spells in E' as (e'' & w6 & v & -> & Sf & I & W6).
  apply (an_number T y' n' e''); auto. exists u, (w1 ++ w2 ++ w3 ++ w4 ++ w5 ++ w6), v. split; [rewrite U; now rewrite <- !app_assoc|].
  rewrite !squeeze_app, W1, W2, W3, W4, W5, W6. reflexivity.
Qed.
Ltac walk H :=
  lazymatch type of H with
  | p_bind ?p _ ?s = Some _ =>
      let x := fresh "x" in let t := fresh "s" in let E := fresh "E" in
      apply bind_inv in H as (x & t & E & H);
      assert (suf T t) by (let K := fresh in assert (K : takes p) by peg; eapply suf_trans; [|exact (K _ _ _ E)]; assumption);
      walk H
  | p_ret _ _ = Some _ => apply ret_inv in H as [? ?]
  | _ => idtac
  end.
Lemma from_now_on_at s x r : suf T s -> g_from_now_on s = Some (x, r) -> abbreviation_in x.
Proof.
  intros S H. unfold g_from_now_on, p_rule in H. apply suf_ws in S. walk H. subst. eapply abbreviation_at; [|eassumption]. assumption.
Qed.
Lemma act_reference_fine s a r : suf T s -> g_act_reference total s = Some (a, r) -> fine_act a.
Proof.
  intros S H. unfold g_act_reference, p_rule in H. apply suf_ws in S. apply or_inv in H as [H|[_ H]].
  - apply bind_inv in H as ([x sp] & t & E & H). apply ret_inv in H as [-> ->]. apply span_good in E as (E & -> & (G1 & G2 & G3 & G4 & G5)); [|exact S|peg].
    apply suf_ws in S. apply abbreviation_at in E as A; [|exact S]. split.
    + intros i [= <-]. destruct A as [(u & w & U) Sh]. now apply (an_abbreviation T x u w).
    + intros q [= <-]. split; auto.
    + discriminate.
  - apply bind_inv in H as ([[y n] sp] & t & E & H). assert (St : suf T t) by (eapply suf_trans; [exact S|]; assert (K : takes (g_act_id total)) by peg; exact (K _ _ _ E)).
    apply act_id_fine in E as [E1 E2]; [|exact S]. apply bind_inv in H as (f & t' & F & H). apply ret_inv in H as [-> ->]. split.
    + intros i [= <-]. exact E1.
    + intros q [= <-]. exact E2.
    + cbn. intros x X. destruct f as [[f|]|]; try discriminate. injection X as ->. apply opt_inv in F as [(z & [= <-] & F)|(? & _)]; [|discriminate].
      apply or_inv in F as [F|[_ F]]; apply map_inv in F as (q & F & Q); [|discriminate]. injection Q as ->. eapply from_now_on_at; eauto.
Qed.
End Text.
