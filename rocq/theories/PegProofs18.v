From Coq Require Import Lia.
From Coq Require Import ZifyBool ZifyNat ZifyN.
From Verif Require Import Unicode PyBase PyBaseFacts NumModel IdModel RefModel RefSpec TreeModel SemModel GramModel GramSpec PegModel PegSpec PegProofs PegProofs2 PegProofs3 PegProofs4.
Local Open Scope N_scope.

(** * The dash of a range *)

Lemma ws_app s : exists sp, s = sp ++ ws s /\ Forall (fun c => isspace_chr c = true) sp.
Proof.
  unfold ws. induction s as [|c s IH]; [exists []; auto|]. cbn [drop_while]. destruct (isspace_chr c) eqn:E; [|exists []; auto].
  destruct IH as (sp & IH & F). exists (c :: sp). cbn [app]. split; [now f_equal|now constructor].
Qed.
Lemma space_not_small c : isspace_chr c = true -> ~ is_small c.
Proof.
  intros H S. unfold is_small in S. assert (X : forallb (fun c => negb (isspace_chr c)) (map N.of_nat (seq 97 26)) = true) by reflexivity.
  rewrite forallb_forall in X. specialize (X c). rewrite H in X. enough (false = true) by discriminate. apply X. apply in_map_iff. exists (N.to_nat c). split; [lia|]. apply in_seq. lia.
Qed.
(* what does not begin with a letter *)
Definition not_letter_next (s : pystr) : Prop := forall c t, ws s = c :: t -> ~ is_small c.
Lemma next_direct s c t : not_letter_next s -> s = c :: t -> ~ is_small c.
Proof.
  intros N ->. destruct (isspace_chr c) eqn:E; [now apply space_not_small|]. eapply N. now apply ws_solid_head.
Qed.
Lemma dash_inv s x r : g_dash s = Some (x, r) -> exists sp d, s = sp ++ d :: r /\ Forall (fun c => isspace_chr c = true) sp /\ In d (u8 "−–-").
Proof.
  intros H. unfold g_dash, p_rule in H. apply toks_inv in H as (w & W & H). apply tok_inv in H as (_ & H & _). rewrite ws_idem in H.
  destruct (ws_app s) as (sp & E & F). rewrite H in E. exists sp. cbn in W. destruct W as [<-|[<-|[<-|[]]]]; cbn [app] in E; eexists; (split; [exact E|split; [exact F|cbn; auto]]).
Qed.
Section Text.
Variable T : pystr.
Lemma dash_before_other s x r : suf T s -> g_dash s = Some (x, r) -> not_letter_next r -> range_dash T.
Proof.
  intros [u0 ->] H N. apply dash_inv in H as (sp & d & -> & F & D). exists (u0 ++ sp), d, r. rewrite <- app_assoc. split; [reflexivity|]. split; [exact D|].
  intros (u' & c & v' & _ & E & C). now apply (next_direct _ _ _ N E).
Qed.
(* [s] is what is left after a character that is not a paragraph sign *)
Definition after_other (s : pystr) : Prop := exists u c, T = u ++ c :: s /\ c <> 167.
Lemma dash_after_other s x r : after_other s -> g_dash s = Some (x, r) -> range_dash T.
Proof.
  intros (u0 & c0 & E0 & C0) H. apply dash_inv in H as (sp & d & -> & F & D). exists ((u0 ++ [c0]) ++ sp), d, r. rewrite <- !app_assoc. split; [exact E0|]. split; [exact D|].
  intros (u' & c & v' & E & _ & _). change (u8 "§") with [167] in E. destruct (exists_last (l := c0 :: sp)) as (z & y & Z); [discriminate|].
  assert (Y : y = c0 \/ In y sp). { destruct sp as [|a sp]; [destruct z as [|? [|? ?]]; try discriminate; injection Z; auto|]. right.
    assert (L : last (c0 :: a :: sp) 0 = y) by (rewrite Z; apply last_last). rewrite <- L. change (last (c0 :: a :: sp) 0) with (last (a :: sp) 0). clear. revert a. induction sp as [|b sp IH]; intros a; [now left|]. right. apply IH. }
  cbn [app] in E. rewrite Z, app_assoc in E. apply app_inj_tail in E as [_ ->].
  destruct Y as [Y|Y]; [congruence|]. rewrite Forall_forall in F. specialize (F _ Y). discriminate F.
Qed.
Lemma after_tok w c v s x r : suf T s -> w = v ++ [c] -> c <> 167 -> p_tok w s = Some (x, r) -> after_other r.
Proof.
  intros [u E] -> C H. apply tok_inv in H as (_ & H & _). destruct (ws_app s) as (sp & E' & _). exists (u ++ sp ++ v), c.
  rewrite E, E', H, <- !app_assoc. auto.
Qed.
Lemma after_set f s x r : suf T s -> (forall c, f c = true -> c <> 167) -> p_re (RSet f) s = Some (x, r) -> after_other r.
Proof.
  intros [u E] F H. apply re_inv in H as [_ H]. cbn in H. destruct s as [|c s]; [discriminate|]. destruct (f c) eqn:Fc; [|discriminate]. injection H as ->. exists u, c. auto.
Qed.
End Text.
Lemma tok_next w c v s x r : p_tok w s = Some (x, r) -> w = c :: v -> ~ is_small c -> not_letter_next s.
Proof. intros H -> C d t E. apply tok_inv in H as (_ & H & _). rewrite E in H. injection H as -> _. exact C. Qed.
Lemma number_next s x r : g_number s = Some (x, r) -> not_letter_next s.
Proof.
  intros H c t E. unfold g_number, p_rule in H. apply re_inv in H as [_ H]. rewrite E in H. cbn in H. destruct (c_09 c) eqn:C; [|discriminate]. unfold c_09 in C. unfold is_small. lia.
Qed.
Lemma next_ws s : not_letter_next (ws s) -> not_letter_next s.
Proof. intros N c t E. eapply N. rewrite ws_idem. exact E. Qed.
Lemma article_next s x r : g_article_id s = Some (x, r) -> not_letter_next s.
Proof.
  intros H. unfold g_article_id, p_rule, g_article_id_group in H. apply next_ws. apply bind_inv in H as (b & t & B & H). apply bind_inv in H as (n & t' & N & _).
  apply opt_inv in B as [(y & -> & B)|(-> & -> & _)]; [apply bind_inv in B as (m & t1 & B & _)|]; eapply number_next; eauto.
Qed.
Lemma numeric_point_next s x r : g_numeric_point_id s = Some (x, r) -> not_letter_next s.
Proof. intros H. unfold g_numeric_point_id, p_rule in H. apply next_ws. apply bind_inv in H as (n & t' & N & _). eapply number_next; eauto. Qed.
Lemma numeric_subpoint_next s x r : g_numeric_subpoint_id s = Some (x, r) -> not_letter_next s.
Proof. intros H. unfold g_numeric_subpoint_id, p_rule in H. apply next_ws. apply map_inv in H as (n & N & _). eapply number_next; eauto. Qed.
Lemma alphabetic_point_after T s x r : suf T s -> g_alphabetic_point_id s = Some (x, r) -> after_other T r.
Proof.
  intros S H. unfold g_alphabetic_point_id, p_rule in H. assert (S' : suf T (ws s)) by (eapply suf_trans; [exact S|apply ws_suf]). apply map_inv in H as (y & H & _).
  apply or_inv in H as [H|[_ H]]; [apply or_inv in H as [H|[_ H]]|].
  - eapply (after_tok T _ 121 [110]); eauto; discriminate.
  - eapply (after_tok T _ 122 [115]); eauto; discriminate.
  - eapply after_set; eauto. unfold c_az. lia.
Qed.
