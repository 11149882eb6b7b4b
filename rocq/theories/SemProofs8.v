From Coq Require Import Lia.
From Coq Require Import ZifyBool ZifyNat ZifyN.
From Verif Require Import PyBase PyBaseFacts NumSpec IdModel IdSpec LineModel LineSpec LineProofs DateModel RefModel RefSpec
  TreeModel TreeSpec TreeProofs TreeProofs2 TreeProofs3 StructModel FixupModel SemModel SemSpec.
Local Open Scope Z_scope.

(** * Block by block *)

Lemma open_after_app a b : open_after (a ++ b) = open_after a + open_after b.
Proof. induction a as [|x a IH]; [reflexivity|]. cbn [app]. rewrite !open_after_cons, IH. lia. Qed.

Definition starts_as (b : block_parser) (l : line) (i : pystr) : Prop := bp_extract b l = Some i.
Definition follows (b : block_parser) (i j : pystr) : Prop := bp_is_next b i j = Ok true.

Lemma block_loop_sound b ls : forall before cur number items q cs,
  (forall i q' l, nth_error items i = Some (q', l) -> q' = q + open_after (firstn i ls)) ->
  map snd items = ls -> q = open_after (before ++ cur) ->
  block_by_block_loop b items None cur number = Ok cs -> (cur <> [] \/ ls <> []) ->
  exists bs, concat bs = cur ++ ls /\ blocks (starts_as b) (follows b) before number bs /\
    Forall2 (fun x c => bp_parse b x = Ok c) bs cs /\ exists r rs, bs = (cur ++ r) :: rs.
Proof.
  induction ls as [|l ls IH]; intros before cur number items q cs HQ HM Hq H NE.
  - destruct items; [|discriminate]. cbn [block_by_block_loop] in H. apply bind_ok in H as (c & P & H). injection H as <-.
    exists [cur]. cbn. rewrite !app_nil_r. split; [reflexivity|]. split; [constructor; destruct NE; congruence|].
    split; [repeat constructor; exact P|]. exists [], []. now rewrite app_nil_r.
  - destruct items as [|[q0 l0] items]; [discriminate|]. cbn [map snd] in HM. injection HM as -> HM.
    assert (Q0 : q0 = q). { specialize (HQ 0%nat q0 l eq_refl). cbn [firstn] in HQ. change (open_after []) with 0 in HQ. lia. }
    subst q0. assert (HQ' : forall i q' l', nth_error items i = Some (q', l') -> q' = (q + open_after [l]) + open_after (firstn i ls)).
    { intros i q' l' Hi. specialize (HQ (S i) q' l' Hi). cbn [firstn] in HQ.
      replace (l :: firstn i ls) with ([l] ++ firstn i ls) in HQ by reflexivity. rewrite open_after_app in HQ. lia. }
    cbn [block_by_block_loop] in H. apply bind_ok in H as (found & Fd & H).
    destruct found.
    + destruct cur as [|x cur]; [discriminate|]. destruct (q =? 0) eqn:Z; [|discriminate].
      destruct (bp_extract b l) as [i|] eqn:E; [|discriminate].
      apply bind_ok in H as (c & P & H). apply bind_ok in H as (r & R & H). injection H as <-.
      eapply (IH (before ++ x :: cur) [l] i items (q + open_after [l])) in R; auto.
      2:{ rewrite open_after_app. lia. }
      2:{ left. discriminate. }
      destruct R as (bs & C & B & F & r0 & rs & ->). exists ((x :: cur) :: ([l] ++ r0) :: rs).
      split; [cbn [concat]; cbn [concat] in C; rewrite C; reflexivity|]. split.
      * eapply blocks_more; [discriminate| |exact E|exact Fd|exact B]. lia.
      * split; [now constructor|]. exists [], ((l :: r0) :: rs). now rewrite app_nil_r.
    + assert (G : block_by_block_loop b items None (cur ++ [l]) number = Ok cs) by (destruct (bp_extract b l); exact H).
      eapply (IH before (cur ++ [l]) number items (q + open_after [l])) in G; auto.
      2:{ rewrite app_assoc, (open_after_app (before ++ cur)). lia. }
      2:{ left. destruct cur; discriminate. }
      destruct G as (bs & C & B & F & r0 & rs & ->). exists (((cur ++ [l]) ++ r0) :: rs).
      split; [rewrite C, <- app_assoc; reflexivity|]. split; [exact B|]. split; [exact F|]. exists (l :: r0), rs.
      now rewrite <- app_assoc.
Qed.
Lemma block_loop_error b items e : forall cur number, exists e', block_by_block_loop b items (Some e) cur number = Err e'.
Proof.
  induction items as [|[q l] items IH]; intros cur number; [eexists; reflexivity|]. cbn [block_by_block_loop].
  destruct (match cur with [] => Ok false | _ :: _ => _ end) as [[|]|e']; cbn [bind]; [|exact (IH _ _)|eauto].
  destruct (bp_extract b l); [|exact (IH _ _)]. destruct (bp_parse b cur); cbn [bind]; [|eauto].
  destruct (IH [l] l0) as (e' & ->). cbn [bind]. eauto.
Qed.
Lemma map_snd_items throw ls : g_end (iterate_with_quote_level throw ls) = None ->
  map snd (g_items (iterate_with_quote_level throw ls)) = ls.
Proof.
  unfold iterate_with_quote_level. generalize 0. induction ls as [|l ls IH]; intros q H; [reflexivity|].
  revert H. cbn [quote_level_loop]. 
  match goal with |- context [if ?c then _ else _] => destruct c end; cbn [g_end g_items map snd]; try discriminate.
  intros H. f_equal. now apply IH.
Qed.
Lemma block_by_block_sound b number ls cs : ls <> [] -> do_parse_block_by_block b number ls = Ok cs ->
  exists bs, concat bs = ls /\ blocks (starts_as b) (follows b) [] number bs /\
    Forall2 (fun x c => bp_parse b x = Ok c) bs cs.
Proof.
  unfold do_parse_block_by_block. intros NE H. cbv zeta in H.
  destruct (g_end (iterate_with_quote_level true ls)) as [e|] eqn:E.
  { destruct (block_loop_error b (g_items (iterate_with_quote_level true ls)) e [] number) as (e' & X). congruence. }
  eapply (block_loop_sound b ls [] [] number _ 0) in H; auto.
  - destruct H as (bs & C & B & F & _). exists bs. auto.
  - intros i q' l Hi. apply quote_levels in Hi as [_ Hi]. lia.
  - now apply map_snd_items.
Qed.
Lemma amendment_blocks r ci co lines s b number : lines <> [] -> parse_block_amendment (ARef r) ci co lines = Ok s ->
  get_parser_and_id r = Ok (b, number) ->
  exists bs cs, s = mk_sae KBlockAmendmentContainer None None ci (Some cs) co NO_META /\ concat bs = lines /\
    blocks (starts_as b) (follows b) [] number bs /\ Forall2 (fun x c => bp_parse b x = Ok c) bs cs.
Proof.
  unfold parse_block_amendment. intros NE H G. rewrite G in H. destruct (bind _ _) as [s'|] eqn:E in H; [|discriminate].
  injection H as ->. apply bind_ok in E as (cs & E & N). cbn [bind] in E. apply new_sae_ok in N as [-> _].
  apply block_by_block_sound in E as (bs & C & B & F); [|exact NE]. exists bs, cs. auto.
Qed.
