(* Layouts of acts are parsed: the loop over the lines. *)
From Coq Require Import Lia.
From Coq Require Import ZifyBool ZifyNat ZifyN.
From Verif Require Import PyBase PyBaseFacts NumModel IdModel LineModel DateModel RefModel TreeModel FixupModel StructModel.
From Verif Require Import NumSpec IdSpec LineSpec RefSpec TreeSpec FixupSpec StructSpec LayoutSpec BodySpec NumProofs IdProofs LineProofs TreeProofs FixupProofs
  StructPatterns StructProofs StructProofs2 StructProofs3 StructProofs4 StructProofs5 LayoutProofs LayoutProofs2 LayoutProofs3 BodyProofs.
Local Open Scope Z_scope.

(** * Elements *)

Lemma special_index s n : nth_error special_headings n = Some s -> index_str s special_parts = Some n.
Proof. intros H. destruct n as [|[|[|n]]]; cbn in H; [injection H as <-; reflexivity..|]. destruct n; discriminate H. Qed.
Lemma struct_parsed l ls e : one_line l -> struct_in (l :: ls) e -> struct_parse (se_kind e) (l :: ls) = Ok e.
Proof.
  intros O H. inversion H as [k l0 t i u K HD NS T|l0 t n E|l0 t i u HD T|l0 t u HD T]; subst; cbn [se_kind].
  - apply struct_extract_heading in HD; [|exact O]. apply text_in_joined in T. subst u. cbn [struct_parse].
    destruct k; try contradiction; try (rewrite HD; reflexivity). rewrite (proj2 (index_str_none _ _)) by exact NS. rewrite HD. reflexivity.
  - cbn [struct_parse]. rewrite (special_index _ _ E). reflexivity.
  - pose proof HD as HD'. apply heading_cases in HD' as (v & C & N). apply struct_extract_heading in HD; [|exact O]. apply text_in_joined in T. cbn [struct_parse]. rewrite HD. cbn [bind].
    rewrite <- T. unfold after_dot_space. change (u8 ". ") with (46%N :: [32%N]). rewrite find_sub_chr by now apply subtitle_no_dot. cbn [bind].
    rewrite Nat.add_comm, skipn_app. rewrite skipn_all2 by lia. cbn [app]. now replace (2 + length i - length i)%nat with 2%nat by lia.
  - apply struct_extract_no_heading in HD; [|exact O]. apply text_in_joined in T. cbn [struct_parse]. rewrite HD. cbn [bind]. now rewrite <- T.
Qed.
Lemma struct_stepped strict last x l ls e : one_line l -> struct_in (l :: ls) e ->
  step_to_next (mk_state strict last x) (BStruct (se_kind e)) l = Ok (mk_state strict (next_last last e) x).
Proof.
  intros O H. destruct (struct_heading _ _ H) as (l' & t & [= <- <-] & H1 & H2). cbn [step_to_next bs_strict bs_last bs_indent].
  assert (X : struct_extract (se_kind e) l = Ok (match se_identifier e with [] => None | i => Some i end)).
  { assert (D : se_kind e = KSubtitle \/ se_kind e <> KSubtitle) by (destruct (se_kind e); auto; right; discriminate). destruct D as [D|D].
    - rewrite D in *. destruct (H2 eq_refl) as [[-> HD]|HD]; [now apply struct_extract_no_heading in HD|]. pose proof (heading_not_empty _ _ _ HD) as N. apply struct_extract_heading in HD; [|exact O].
      rewrite HD. now destruct (se_identifier e).
    - specialize (H1 D). pose proof (heading_not_empty _ _ _ H1) as N. apply struct_extract_heading in H1; [|exact O]. rewrite H1. now destruct (se_identifier e). }
  rewrite X. cbn [bind]. unfold next_last. destruct (se_identifier e); reflexivity.
Qed.

(** * The loop *)

Lemma loop_line q l ls : 0 <= q + open_after [l] ->
  quote_level_loop true q (l :: ls) = mk_gen ((q, l) :: g_items (quote_level_loop true (q + open_after [l]) ls)) (g_end (quote_level_loop true (q + open_after [l]) ls)).
Proof.
  intros N. cbn [quote_level_loop andb]. assert (D : quote_level_diff (l_content l) = open_after [l]) by (rewrite open_after_cons; change (open_after []) with 0; lia).
  rewrite D. now replace (q + open_after [l] <? 0) with false by lia.
Qed.
Definition body_loop (strict : bool) (last : struct_kind -> pystr) (x : option pyfloat) (pi : bool) (q : Z) (ls : list line) :=
  parse_elements_loop (mk_state strict last x) pi (g_items (quote_level_loop true q ls)) (g_end (quote_level_loop true q ls)).
Lemma calm_loop strict last x pi rest : forall previous q ls previous', calm_lines strict last x previous q ls previous' -> balanced q ls -> Forall one_line ls ->
  forall els cur current, body_loop strict last x pi q (ls ++ rest) els cur current previous = body_loop strict last x pi 0 rest els (cur ++ ls) current previous'.
Proof.
  intros previous q ls previous' C. unfold body_loop. induction C as [previous q|previous q l ls previous' Q C IH|previous q l ls previous' Q S C IH]; intros B O els cur current; cbn [app].
  - inversion B. subst. now rewrite app_nil_r.
  - inversion B as [|? ? ? N B']; subst. inversion O; subst. rewrite loop_line by exact N. cbn [g_items g_end parse_elements_loop].
    replace (q =? 0) with false by lia. cbn [negb]. rewrite IH by assumption. now rewrite <- app_assoc.
  - inversion B as [|? ? ? N B']; subst. inversion O; subst. rewrite loop_line by exact N. cbn [g_items g_end parse_elements_loop].
    change (0 =? 0) with true. cbn [negb]. rewrite calm_header by assumption. cbn [bind]. rewrite IH by assumption. now rewrite <- app_assoc.
Qed.
Definition finished (els : list act_child) (cur : list line) (current : option body_parser) (pi : bool) : res (list act_child) :=
  match current with None => Ok els | Some p => e <- body_parse p cur pi ;; Ok (els ++ [e]) end.
Lemma article_layout_heading pi l ls a : article_layout pi (l :: ls) a -> exists i, article_heading (l_content l) i.
Proof. intros H. inversion H as [i sp l0 l1 t ls' title rest bl body ps N SP C]; subst. exists i. split; [exact N|]. now exists sp, t. Qed.
Lemma body_parsed pi strict last x previous ls cs : body_layout pi strict last x previous ls cs ->
  forall els cur current, cs <> [] \/ current <> None ->
  body_loop strict last x pi 0 ls els cur current previous = (els' <- finished els cur current pi ;; Ok (els' ++ cs)).
Proof.
  induction 1 as [last x previous|last x previous previous' l ls rest a cs A N B O C BL IH|last x previous previous' l ls rest e cs SI S B O C BL IH]; intros els cur current X.
  - unfold body_loop. cbn [quote_level_loop g_items g_end parse_elements_loop]. destruct X as [X|X]; [contradiction|]. destruct current as [p|]; [|contradiction].
    cbn [finished]. destruct (body_parse p cur pi); cbn [bind]; [now rewrite app_nil_r|reflexivity].
  - inversion B as [|? ? ? NN B']; subst. inversion O; subst. destruct (article_layout_heading _ _ _ _ A) as [i HD]. cbn [app]. unfold body_loop. rewrite loop_line by exact NN.
    cbn [g_items g_end parse_elements_loop]. change (0 =? 0) with true. cbn [negb]. rewrite (article_starts _ _ _ _ _ i) by assumption. cbn [bind]. fold (finished els cur current pi).
    destruct (finished els cur current pi) as [els'|e]; cbn [bind step_to_next bs_strict bs_last]; [|reflexivity].
    rewrite Z.add_0_l in *. pose proof (calm_loop _ _ _ pi rest _ _ _ _ C B' ltac:(assumption) els' [l] (Some BArticle)) as CL. unfold body_loop in CL. rewrite CL. clear CL.
    cbn [app]. assert (Y : cs <> [] \/ Some BArticle <> None) by (right; discriminate). pose proof (IH els' (l :: ls) (Some BArticle) Y) as Q. unfold body_loop in Q. rewrite Q. cbn [finished body_parse]. rewrite (article_parsed _ _ _ A). cbn [bind]. now rewrite <- app_assoc.
  - inversion B as [|? ? ? NN B']; subst. inversion O; subst. cbn [app]. unfold body_loop. rewrite loop_line by exact NN.
    cbn [g_items g_end parse_elements_loop]. change (0 =? 0) with true. cbn [negb]. rewrite (struct_starts _ _ _ _ ls _ e) by assumption. cbn [bind]. fold (finished els cur current pi).
    destruct (finished els cur current pi) as [els'|x']; cbn [bind]; [|reflexivity]. rewrite (struct_stepped _ _ _ _ ls) by assumption. cbn [bind].
    rewrite Z.add_0_l in *. pose proof (calm_loop _ _ _ pi rest _ _ _ _ C B' ltac:(assumption) els' [l] (Some (BStruct (se_kind e)))) as CL. unfold body_loop in CL. rewrite CL. clear CL.
    cbn [app]. assert (Y : cs <> [] \/ Some (BStruct (se_kind e)) <> None) by (right; discriminate). pose proof (IH els' (l :: ls) (Some (BStruct (se_kind e))) Y) as Q. unfold body_loop in Q. rewrite Q. cbn [finished body_parse]. rewrite (struct_parsed l ls e) by assumption. cbn [bind]. now rewrite <- app_assoc.
Qed.
(* lines before the first element are dropped *)
Lemma elements_parsed pi strict x last lead previous body cs : calm_lines strict last x EMPTY_LINE 0 lead previous -> balanced 0 lead -> Forall one_line lead ->
  body_layout pi strict last x previous body cs -> cs <> [] -> parse_elements (mk_state strict last x) (lead ++ body) pi = Ok cs.
Proof.
  intros C B O BL N. unfold parse_elements, iterate_with_quote_level. cbv zeta. fold (body_loop strict last x pi 0 (lead ++ body) [] [] None EMPTY_LINE).
  rewrite (calm_loop _ _ _ pi body _ _ _ _ C B O). rewrite (body_parsed _ _ _ _ _ _ _ BL) by (now left). reflexivity.
Qed.

(** * Acts *)

Lemma starts_after_blank strict last x previous l e : starts strict last x previous l e -> starts strict last x EMPTY_LINE l e.
Proof. unfold starts. destruct (se_kind e); auto. destruct (se_identifier e); intuition; reflexivity. Qed.
Lemma body_after_blank pi strict last x previous ls cs : body_layout pi strict last x previous ls cs -> body_layout pi strict last x EMPTY_LINE ls cs.
Proof. intros [| |]; [constructor|eapply layout_with_article; eassumption|eapply layout_with_struct; try eassumption; eapply starts_after_blank; eassumption]. Qed.
Lemma split_preamble previous pre previous' : preamble_lines previous pre previous' -> forall body cs pi,
  body_layout pi true no_numbers None previous' body cs -> cs <> [] -> find_split_point (pre ++ body) previous = Ok (length pre).
Proof.
  induction 1 as [previous|previous l ls previous' O C P IH]; intros body cs pi BL N; cbn [app length].
  - inversion BL as [|? ? ? ? l ls rest a cs' A NE B O|? ? ? ? l ls rest e cs' SI S B O]; subst; [contradiction| |]; inversion O; subst; cbn [app find_split_point]; change (create_parsers true) with (mk_state true no_numbers None).
    + destruct (article_layout_heading _ _ _ _ A) as [i HD]. now rewrite (article_starts _ _ _ _ _ i).
    + now rewrite (struct_starts _ _ _ _ ls _ e).
  - cbn [find_split_point]. change (create_parsers true) with (mk_state true no_numbers None). rewrite calm_header by assumption. cbn [bind]. now rewrite (IH _ _ _ BL N).
Qed.
Theorem act_parsed i d s lines a : act_layout a lines -> act_identifier a = i -> act_publication_date a = d -> act_subject a = s -> parse_act i d s lines = Ok a.
Proof.
  intros [pre previous body P T BL N] <- <- <-. unfold parse_act, parse_preamble. rewrite (split_preamble _ _ _ P _ _ _ BL N). cbn [bind].
  rewrite firstn_app, firstn_all, Nat.sub_diag, firstn_O, app_nil_r, skipn_app, skipn_all, Nat.sub_diag. cbn [app skipn].
  change (create_parsers true) with (mk_state true no_numbers None).
  pose proof (elements_parsed true true None no_numbers [] EMPTY_LINE body (act_children a) ltac:(constructor) ltac:(constructor) ltac:(constructor) (body_after_blank _ _ _ _ _ _ _ BL) N) as E.
  cbn [app] in E. rewrite E. cbn [bind]. apply text_in_joined in T. rewrite <- T. now destruct a.
Qed.
