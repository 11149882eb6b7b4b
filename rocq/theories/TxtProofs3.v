From Coq Require Import Lia.
From Coq Require Import ZifyBool ZifyNat ZifyN.
From Verif Require Import PyBase PyBaseFacts IdModel LineModel DateModel RefModel TreeModel TreeSpec StructModel GazModel HtmlModel HtmlSpec HtmlProofs HtmlProofs2 HtmlProofs3 TxtModel TxtSpec TxtProofs TxtProofs2.
Local Open Scope Z_scope.

(** * The file *)
Lemma printed_text o : all_file o -> no_space (printed true o) = text o /\ printed false o = [].
Proof.
  unfold text, printed. induction 1 as [|[b s] o E F [IH1 IH2]]; [auto|]. cbn in E. subst b. cbn [flat_map fst snd Bool.eqb map concat]. rewrite !no_space_app, IH1, IH2, <- app_assoc. auto.
Qed.

(** * In order *)
Lemma order_right l : forall s r, in_order l s -> in_order l (s ++ r).
Proof. induction l as [|x l IH]; intros s r H; cbn in *; auto. destruct H as (a & b & -> & H). exists a, (b ++ r). split; [now rewrite <- !app_assoc|auto]. Qed.
Lemma order_left l s r : in_order l s -> in_order l (r ++ s).
Proof. destruct l as [|x l]; cbn; auto. intros (a & b & -> & H). exists (r ++ a), b. now rewrite <- app_assoc. Qed.
Lemma order_app l m : forall s t, in_order l s -> in_order m t -> in_order (l ++ m) (s ++ t).
Proof. induction l as [|x l IH]; intros s t H G; cbn [app in_order] in *; [now apply order_left|]. destruct H as (a & b & -> & H). exists a, (b ++ t). split; [now rewrite <- !app_assoc|auto]. Qed.
Lemma order_one s : in_order [s] s.
Proof. exists [], []. cbn. now rewrite app_nil_r. Qed.
Lemma order_empty s : in_order [[]] s.
Proof. exists [], s. cbn. auto. Qed.

Section Order.
Context (w : wrapper) (width : Z) (S : splits w) (W : width <> 0).
Definition has (o : output) (strs : list pystr) : Prop := all_file o /\ in_order (map no_space strs) (text o).
Lemma has_app a b s t : has a s -> has b t -> has (a ++ b) (s ++ t).
Proof. intros [F1 O1] [F2 O2]. split; [now apply file_app|]. rewrite text_app, map_app. now apply order_app. Qed.
Lemma has_nil : has [] []. Proof. split; [constructor|exact I]. Qed.
Lemma has_print s indent o : wrapped_print w s indent width = Ok o -> has o [s].
Proof. intros E. destruct (wrapped_shows w s indent width o S W E) as (F & T & _). split; auto. unfold text. rewrite T. apply order_left, order_one. Qed.
Lemma has_file a s : has (to_file (a ++ s)) [s].
Proof. split; [apply file_one|]. rewrite text_file, no_space_app. apply order_left, order_one. Qed.
Lemma has_opt o f out : (forall x, o = Some x -> forall out, f x = Ok out -> has out [x]) -> when_print o f = Ok out -> has out [opt_string o].
Proof.
  intros H E. unfold when_print in E. destruct o as [[|c x]|]; cbn [opt_true opt_string] in *; try (ok_in E; split; [constructor|apply order_empty]). apply (H _ eq_refl _ E).
Qed.
Lemma has_within a s b indent o : wrapped_print w (a ++ s ++ b) indent width = Ok o -> has o [s].
Proof. intros E. apply has_print in E as [F O]. split; auto. cbn [map] in O. destruct O as (x & y & -> & _). apply order_left, order_right. rewrite !no_space_app. apply order_left, order_right, order_one. Qed.
Lemma has_struct indent e o : txt_struct w width indent e = Ok o -> has o (struct_strings e).
Proof.
  intros E. unfold txt_struct, struct_strings in *. apply bind_ok in E as (f & Ef & E). rewrite Ef. destruct (se_kind e).
  5:{ apply has_print in E as [F O]. split; auto. cbn [map] in O. rewrite strip_no_space in O. destruct O as (x & y & -> & _). apply order_left, order_right. rewrite no_space_app. apply (order_app [_] [_]); [|apply order_one].
      destruct f as [|c f]; [apply order_empty|]. rewrite no_space_app. apply order_right, order_one. }
  all: apply bind_ok in E as (a & Ea & E); apply bind_ok in E as (b & Eb & E); ok_in E; apply (has_app a b [f] [se_title e]); [eapply has_print; exact Ea|];
    (destruct (se_title e); [ok_in Eb; split; [constructor|apply order_empty]|eapply has_print; exact Eb]).
Qed.
Lemma has_rows base indent ls : forall o, quoted_rows base indent ls = Ok o -> has o (map l_content ls).
Proof.
  unfold quoted_rows. induction ls as [|l ls IH]; intros o E; cbn [mapM] in E; [ok_in E; apply has_nil|]. apply bind_ok in E as (x & Ex & E). apply bind_ok in E as (y & Ey & E). ok_in E. apply bind_ok in Ex as (i & Ei & Ex). ok_in Ex.
  change ((true, ?s) :: y) with (to_file s ++ y). cbn [map]. apply (has_app _ y [l_content l]); [|auto]. replace (indent ++ spaces 5 ++ i ++ l_content l) with ((indent ++ spaces 5 ++ i) ++ l_content l) by now rewrite <- !app_assoc. apply has_file.
Qed.
Lemma has_quoted indent ls o : txt_quoted indent ls = Ok o -> has o (quoted_strings ls).
Proof.
  intros E. unfold txt_quoted in E. apply bind_ok in E as (base & _ & E). apply bind_ok in E as (rows & Er & E). ok_in E. apply has_rows in Er. unfold quoted_strings. apply has_app; [apply has_file|]. apply has_app; [exact Er|apply has_file].
Qed.
Lemma has_all l : Forall (fun c => forall indent o, txt_child w width indent c = Ok o -> has o (child_texts c)) l -> forall indent o, txt_all w width indent l = Ok o -> has o (flat_map child_texts l).
Proof. induction 1 as [|c l H F IH]; intros indent o E; cbn in E; [ok_in E; apply has_nil|]. apply bind_ok in E as (a & Ea & E). apply bind_ok in E as (b & Eb & E). ok_in E. cbn [flat_map]. apply has_app; eauto. Qed.
Lemma has_seq l : Forall (fun c => forall indent o, txt_child w width indent c = Ok o -> has o (child_texts c)) l -> forall indent o, txt_seq w width indent l = Ok o -> has o (flat_map child_texts l).
Proof. induction 1 as [|c l H F IH]; intros indent o E; cbn in E; [ok_in E; apply has_nil|]. apply bind_ok in E as (a & Ea & E). apply bind_ok in E as (b & Eb & E). ok_in E. cbn [flat_map]. apply has_app; eauto. Qed.
Lemma has_paragraphs l : Forall (fun c => forall indent o, txt_sae w width indent c = Ok o -> has o (sae_texts c)) l -> forall indent o, txt_paragraphs w width indent l = Ok o -> has o (flat_map sae_texts l).
Proof. induction 1 as [|c l H F IH]; intros indent o E; cbn in E; [ok_in E; apply has_nil|]. apply bind_ok in E as (a & Ea & E). apply bind_ok in E as (b & Eb & E). ok_in E. cbn [flat_map]. apply has_app; eauto. Qed.
Theorem tree_has :
  (forall s indent o, txt_sae w width indent s = Ok o -> has o (sae_texts s)) /\
  (forall c indent o, txt_child w width indent c = Ok o -> has o (child_texts c)) /\
  (forall a indent o, txt_article w width indent a = Ok o -> has o (article_texts a)).
Proof.
  apply tree_mut.
  - intros k i t n cs w' m H indent o E. destruct (sae_kind_eqb k KBlockAmendmentContainer) eqn:K.
    + assert (k = KBlockAmendmentContainer) as -> by (destruct k; try discriminate; reflexivity). rewrite txt_container in E. apply bind_ok in E as (a & Ea & E). apply bind_ok in E as (b & Eb & E). apply bind_ok in E as (c & Ec & E). ok_in E.
      destruct cs as [l|]; [|discriminate]. change (sae_texts _) with ([opt_string n] ++ [u8 "„"] ++ flat_map child_texts l ++ [u8 "”"] ++ [opt_string w']).
      apply has_app; [|apply has_app; [apply has_file|apply has_app; [|apply has_app; [apply has_file|]]]].
      * unfold parenthesized in Ea. eapply has_opt; [|exact Ea]. intros x _ out Ex. eapply has_within; exact Ex.
      * eapply has_all; [|exact Eb]. now apply H.
      * unfold parenthesized in Ec. eapply has_opt; [|exact Ec]. intros x _ out Ex. eapply has_within; exact Ex.
    + assert (K' : k <> KBlockAmendmentContainer) by (intros ->; discriminate). rewrite txt_element in E by auto. cbn zeta in E.
      assert (Es : sae_texts (mk_sae k i t n cs w' m) = match opt_true t with Some x => [x] | None => [opt_string n] ++ match cs with None => [] | Some l => flat_map child_texts l end ++ [opt_string w'] end) by (destruct k; try congruence; reflexivity). rewrite Es. clear Es.
      destruct (opt_true t) as [x|]; [eapply has_print; exact E|]. apply bind_ok in E as (a & Ea & E). destruct cs as [l|]; [|discriminate]. apply bind_ok in E as (b & Eb & E). apply bind_ok in E as (c & Ec & E). ok_in E.
      apply has_app; [|apply has_app].
      * eapply has_opt; [|exact Ea]. intros x _ out Ex. eapply has_print; exact Ex.
      * eapply has_seq; [|exact Eb]. now apply H.
      * eapply has_opt; [|exact Ec]. intros x _ out Ex. eapply has_print; exact Ex.
  - intros s H indent o E. exact (H indent o E).
  - intros a H indent o E. exact (H indent o E).
  - intros ls indent o E. exact (has_quoted indent ls o E).
  - intros e indent o E. exact (has_struct indent e o E).
  - intros i t ps H indent o E. rewrite txt_article_eq in E. cbn zeta in E. apply bind_ok in E as (a & Ea & E). apply bind_ok in E as (b & Eb & E). ok_in E. change (article_texts _) with ([opt_string t] ++ flat_map sae_texts ps). apply has_app.
    + eapply has_opt; [|exact Ea]. intros x _ out Ex. exact (has_within (spaces 5 ++ u8 "[") x (u8 "]") _ _ Ex).
    + eapply has_paragraphs; [|exact Eb]. exact H.
Qed.
Theorem act_has indent a o : txt_act w width indent a = Ok o -> has o (act_texts a).
Proof.
  intros E. unfold txt_act in E. apply bind_ok in E as (p & Ep & E). apply bind_ok in E as (r & Er & E). ok_in E. unfold act_texts. change ([act_identifier a; act_subject a; act_preamble a]) with ([act_identifier a; act_subject a] ++ [act_preamble a]). rewrite <- app_assoc. apply has_app; [|apply has_app; [eapply has_print; exact Ep|]].
  - split; [apply file_one|]. rewrite text_file, no_space_heading. cbn [concat]. rewrite !no_space_app. apply order_left. apply (order_app [_] [_]); [apply order_one|]. apply order_left, order_right, order_one.
  - revert indent r Er. induction (act_children a) as [|c l IH]; intros indent o E; [ok_in E; apply has_nil|]. apply bind_ok in E as (x & Ex & E). apply bind_ok in E as (y & Ey & E). ok_in E. cbn [flat_map]. apply has_app; [|apply (has_app (to_file []) y []); [split; [apply file_one|exact I]|eauto]].
    destruct c as [e|z]; [eapply has_struct; exact Ex|]. destruct tree_has as (_ & _ & H). eapply H; exact Ex.
Qed.
End Order.

(** * Raw texts *)
Lemma raw_shows indent x o : txt_raw indent x = Ok o ->
  exists rows, o = [(true, heading (lw_identifier x) (lw_subject x))] ++ rows ++ [(true, [])] /\
    Forall2 (fun p l => fst p = true /\ exists n, snd p = indent ++ repeat 32%N n ++ (if l_bold l then u8 "<BOLD> " else u8 "       ") ++ l_content l) rows (lw_body x).
Proof.
  intros E. unfold txt_raw in E. apply bind_ok in E as (base & _ & E). apply bind_ok in E as (rows & Er & E). ok_in E. exists rows. split; [reflexivity|].
  revert rows Er. unfold raw_rows. induction (lw_body x) as [|l ls IH]; intros rows E; cbn [mapM] in E; [ok_in E; constructor|]. apply bind_ok in E as (p & Ep & E). apply bind_ok in E as (y & Ey & E). ok_in E. constructor; auto.
  apply bind_ok in Ep as (i & Ei & Ep). ok_in Ep. split; [reflexivity|]. unfold rel_indent in Ei. apply bind_ok in Ei as (k & _ & Ei). ok_in Ei. exists (Z.to_nat k). reflexivity.
Qed.
