(* Block amendments, read forwards. *)
From Coq Require Import Lia.
From Coq Require Import ZifyBool ZifyNat ZifyN.
From Verif Require Import PyBase PyBaseFacts UnicodeAlnum NumModel IdModel LineModel DateModel RefModel TreeModel StructModel SemModel GramModel GramSpec PegModel PegSpec PegSpec2 PegSpec3 PegProofs PegProofs2 PegProofs3 PegProofs4 PegProofs5 PegProofs6 PegProofs7 PegProofs8 PegProofs10 PegProofs11 PegProofs12 PegProofs13 PegProofs14 PegProofs22 PegProofs23 PegProofs24 PegProofs25 PegProofs26 PegProofs27 PegProofs28 PegProofs29 PegProofs30 PegProofs31 PegProofs32.
Local Open Scope Z_scope.

Section Total.
Variable total : Z.

(** * The title of an act *)

Definition in_effect : pystr := u8 "hatálybalépésével összefüggő".
Definition title_step : parser pystr := p_not (g_act_reference total ;~ p_not (p_tok in_effect)) ;~ g_any_token.
Lemma act_blind : blind (g_act_reference total). Proof. apply blind_rule. Qed.
Lemma title_step_blind : forall t, title_step (ws t) = title_step t.
Proof.
  intros t. unfold title_step, p_bind, p_not at 1 3. rewrite act_blind. destruct (g_act_reference total t) as [[g r]|]; [destruct (p_not _ r)|]; try reflexivity; apply (blind_rule _ t).
Qed.
Lemma words_no_act c u s : words (c :: u) -> isspace_chr c = false -> closed (c :: u) s -> opens s -> g_act_reference total ((c :: u) ++ s) = None.
Proof.
  intros W C K O. assert (WC : word_chr c) by (destruct W as [W _]; now inversion W). destruct (word_head c u s WC C) as (H1 & _). pose proof (abbreviation_no c u s W C K O) as A.
  unfold g_act_reference, p_rule. cbn [app] in *. rewrite ws_solid_head by exact C. rewrite or_no; [|apply bind_no, span_no; now rewrite ws_solid_head].
  apply bind_no. unfold g_act_id. apply (map_no (fun x => (fst (fst x), snd (fst x), snd x))). apply span_no. apply bind_no, number_no. now rewrite lc_ws.
Qed.
Lemma title_rounds s g r : opens s -> ws s = s -> g_act_reference total s = Some (g, r) -> p_tok in_effect r = None ->
  forall n u t0, words u -> closed u s -> ws t0 = ws (u ++ s) -> (length t0 <= n)%nat -> exists l t, p_rounds n title_step t0 = (l, t) /\ ws t = s.
Proof.
  intros O E A R. induction n as [|n IH]; intros u t0 W K T L.
  - destruct t0; [|cbn in L; lia]. exists [], []. split; [reflexivity|]. destruct (ws_words u s) as (v & V & [->|(c & w & -> & C)] & _); rewrite V in T; [now rewrite T|].
    cbn [app] in T. rewrite ws_solid_head in T by exact C. discriminate T.
  - cbn [p_rounds]. destruct (ws_words u s) as (v & V & H & z & Z). rewrite V in T. destruct H as [->|(c & w & -> & C)].
    + cbn [app] in T. assert (N : title_step t0 = None). { rewrite <- title_step_blind, T, E. apply bind_no. unfold p_not at 1. rewrite (bind_yes _ _ _ _ _ A). unfold p_not. now rewrite R. }
      rewrite N. exists [], t0. split; [reflexivity|]. now rewrite T.
    + assert (W' : words (c :: w)) by (rewrite Z in W; now apply words_suffix in W). assert (K' : closed (c :: w) s) by (rewrite Z in K; eapply closed_suffix; [discriminate|exact K]).
      destruct (word_token c w s W' C K') as (x & u1 & u2 & X & ->). assert (N : title_step t0 = Some (x, u2 ++ s)).
      { rewrite <- title_step_blind, T. cbn [app]. rewrite ws_solid_head by exact C. unfold title_step. rewrite (bind_yes _ _ _ tt ((c :: u1 ++ u2) ++ s)); [exact X|]. unfold p_not at 1. rewrite bind_no; [reflexivity|]. now apply words_no_act. }
      rewrite N. destruct (IH u2 (u2 ++ s)) as (l & t & P & F).
      * change (c :: u1 ++ u2) with ((c :: u1) ++ u2) in W'. now apply words_suffix in W'.
      * destruct u2; [now right; left|]. change (c :: u1 ++ n0 :: u2) with ((c :: u1) ++ n0 :: u2) in K'. eapply closed_suffix; [discriminate|exact K'].
      * reflexivity.
      * cbn [app] in T. rewrite ws_solid_head in T by exact C. pose proof (ws_length t0) as B. rewrite T in B. cbn [length] in B. rewrite !app_length in *. lia.
      * rewrite P. exists (x :: l), t. auto.
Qed.
Lemma title_reads u s g r : words u -> closed u s -> opens s -> ws s = s -> g_act_reference total s = Some (g, r) -> p_tok in_effect r = None ->
  exists t, g_act_title total (u ++ s) = Some (tt, t) /\ ws t = s.
Proof.
  intros W K O E A R. destruct (title_rounds s g r O E A R (length (ws (u ++ s))) u (ws (u ++ s)) W K (ws_idem _) (le_n _)) as (l & t & P & F). exists t. split; [|exact F].
  unfold g_act_title, p_rule. fold in_effect. fold title_step. unfold p_bind, p_many. now rewrite P.
Qed.
Lemma the_act_reads z u a x y m s : article_word z -> title_words u -> act_written a x y m -> gap s -> no_bracket s -> no_more s -> p_tok in_effect s = None ->
  exists g, g_the_act total (z ++ u ++ x ++ y ++ s) = Some (g, s) /\ says_act a (pos_of total (x ++ y ++ s)) (pos_of total (y ++ s)) m g.
Proof.
  intros Z (W & v & c & -> & C & H) A G B M I. destruct (act_reads total a x y m s A G B M) as (g & R & Y). exists g. split; [|exact Y].
  pose proof (act_opens 0 (x ++ y) _ m s (ar_alone 0 a x y m A)) as O. rewrite <- app_assoc in O. destruct (act_begins a x y m (y ++ s) A) as (d & t & V & D). apply act_head_facts in D as (D & _).
  assert (E : ws (x ++ y ++ s) = x ++ y ++ s) by (rewrite V; now apply ws_solid_head). assert (K : closed (v ++ [c]) (x ++ y ++ s)) by (right; right; eauto).
  destruct (title_reads (v ++ [c]) (x ++ y ++ s) g s W K O E R I) as (q & T & Q). unfold g_the_act.
  assert (U : exists w, g_upper_or_lower_az (z ++ (v ++ [c]) ++ x ++ y ++ s) = Some (w, (v ++ [c]) ++ x ++ y ++ s)).
  { assert (F : exists e v', (v ++ [c]) ++ x ++ y ++ s = e :: v' /\ isspace_chr e = true) by (destruct v as [|e v]; [exists c|exists e]; eexists; (split; [reflexivity|assumption])).
    destruct F as (e & v' & -> & F). unfold g_upper_or_lower_az, p_re.
    assert (e122 : (122 =? e)%N = false) by (apply N.eqb_neq; intros <-; discriminate F).
    assert (R1 : forall z, In z [u8 "A"; u8 "a"] -> r_match (RSeq (RSet (in_str (u8 "Aa"))) (ROpt (N.eqb 122))) Some (z ++ e :: v') = Some (e :: v')) by (intros b [<-|[<-|[]]]; (destruct e as [|p]; [reflexivity|]); cbn in e122 |- *; now rewrite e122).
    unfold article_word in Z. destruct Z as [<-|[<-|[<-|[<-|[]]]]]; [rewrite (R1 (u8 "A")) by (cbn; tauto)| |rewrite (R1 (u8 "a")) by (cbn; tauto)|]; eexists; reflexivity. }
  destruct U as (w & U). rewrite (bind_yes _ _ _ _ _ U), (bind_yes _ _ _ _ _ T). rewrite <- (act_blind q), Q. exact R.
Qed.
End Total.
Section Text.
Variable T : pystr.
Ltac walk H :=
  lazymatch type of H with
  | p_bind ?p _ ?s = Some _ =>
      let x := fresh "x" in let t := fresh "s" in let E := fresh "E" in
      apply bind_inv in H as (x & t & E & H);
      assert (suf T t) by (let K := fresh in assert (K : takes p) by peg; eapply suf_trans; [|exact (K _ _ _ E)]; assumption);
      walk H
  | p_ret _ _ = Some _ => apply ret_inv in H as [? ?]
  | _ => idtac
  end.

(** * Nothing is said of other places *)

Lemma suffix_has w s x r : suf T s -> g_suffix w s = Some (x, r) -> has T w.
Proof. intros S H. unfold g_suffix, p_rule in H. apply suf_ws in S. apply or_inv in H as [H|[_ H]]; [eapply suffixed_has|eapply tok_has]; eauto. Qed.
Lemma structural_has s x r : suf T s -> g_structural_position s = Some (x, r) -> exists w, In w [u8 "követő"; u8 "megelőző"; u8 "alcím"; u8 "Fejezet"; u8 "Rész"; u8 "Cím"] /\ has T w.
Proof.
  assert (P : forall a b, has T (a ++ b) -> has T a) by (intros a b (u & v & E); exists u, (b ++ v); now rewrite <- app_assoc in E).
  intros S H. unfold g_structural_position in H. apply or_inv in H as [H|[_ H]]; [apply or_inv in H as [H|[_ H]]|repeat (apply or_inv in H as [H|[_ H]])].
  - walk H. unfold g_after_article, p_rule in H. assert (S1 : suf T (ws s0)) by now apply suf_ws. walk H. match goal with Q : p_toks _ _ = _ |- _ => apply toks_has with (T := T) in Q as (w & I & Q); [|assumption] end.
    exists (u8 "követő"). split; [cbn; tauto|]. destruct I as [<-|[<-|[]]]; [apply (P _ (u8 "en"))|]; assumption.
  - walk H. unfold g_before_article, p_rule in H. assert (S1 : suf T (ws s0)) by now apply suf_ws. walk H. match goal with Q : p_toks _ _ = _ |- _ => apply toks_has with (T := T) in Q as (w & I & Q); [|assumption] end.
    exists (u8 "megelőző"). split; [cbn; tauto|]. destruct I as [<-|[<-|[]]]; [apply (P _ (u8 "en"))|]; assumption.
  - unfold g_subtitle_number, p_rule in H. apply suf_ws in S. walk H. exists (u8 "alcím"). split; [cbn; tauto|]. match goal with Q : g_suffix _ _ = _ |- _ => apply suffix_has in Q; assumption end.
  - unfold g_subtitle_title, p_rule in H. apply suf_ws in S. walk H. exists (u8 "alcím"). split; [cbn; tauto|]. apply (P _ (u8 "e")). match goal with Q : p_tok (u8 "alcíme") _ = _ |- _ => apply tok_has with (T := T) in Q; assumption end.
  - unfold g_chapter_number, p_rule in H. apply suf_ws in S. walk H. exists (u8 "Fejezet"). split; [cbn; tauto|]. match goal with Q : g_suffix _ _ = _ |- _ => apply suffix_has in Q; assumption end.
  - unfold g_part_number, p_rule in H. apply suf_ws in S. walk H. exists (u8 "Rész"). split; [cbn; tauto|]. match goal with Q : g_suffix _ _ = _ |- _ => apply suffix_has in Q; assumption end.
  - unfold g_title_number, p_rule in H. apply suf_ws in S. walk H. exists (u8 "Cím"). split; [cbn; tauto|]. match goal with Q : g_suffix _ _ = _ |- _ => apply suffix_has in Q; assumption end.
Qed.
Lemma structural_none : unplaced T -> p_opt g_structural_position T = Some (None, T).
Proof.
  intros F. apply opt_no. destruct (g_structural_position T) as [[x r]|] eqn:E; [|reflexivity]. exfalso. apply structural_has in E as (w & I & H); [|apply suf_refl]. unfold unplaced in F. rewrite Forall_forall in F. exact (F w I H).
Qed.
End Text.
Lemma has_apart a b x : x <> [] -> Forall nonspace x -> has (a ++ 32%N :: b) x -> has a x \/ has b x.
Proof.
  intros N F (u & v & E). apply app_eq_app in E as (l & [(-> & E)|(-> & E)]).
  - apply app_eq_app in E as (k & [(-> & E)|(-> & E)]).
    + destruct k as [|c k]; [|injection E as <- ->; apply Forall_app in F as [_ F]; inversion F as [|? ? C]; discriminate C].
      rewrite app_nil_r in *. left. exists u, []. now rewrite app_nil_r.
    + left. exists u, k. reflexivity.
  - destruct l as [|c l]; cbn [app] in E.
    + destruct x as [|c x]; [contradiction|]. injection E as <- _. inversion F as [|? ? C]; discriminate C.
    + injection E as <- ->. right. now exists l, v.
Qed.
Lemma unplaced_apart a b : unplaced a -> unplaced b -> unplaced (a ++ 32%N :: b).
Proof.
  unfold unplaced. rewrite !Forall_forall. intros A B x I H. assert (Q : x <> [] /\ Forall nonspace x) by (repeat (destruct I as [<-|I]; [split; [discriminate|repeat constructor]|]); destruct I). destruct Q as [Q F].
  apply has_apart in H as [H|H]; [exact (A x I H)|exact (B x I H)|exact Q|exact F].
Qed.
Lemma unplaced_check w : forallb (fun x => negb (contains_sub x w)) [u8 "követő"; u8 "megelőző"; u8 "alcím"; u8 "Fejezet"; u8 "Rész"; u8 "Cím"] = true -> unplaced w.
Proof.
  intros H. rewrite forallb_forall in H. apply Forall_forall. intros x I (u & v & E). apply H in I. rewrite (proj2 (contains_sub_spec x w)) in I; [discriminate I|]. now exists u, v.
Qed.
