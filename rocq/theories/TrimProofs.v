(* Wrapped lines do not end with white space, except for full lines before a long word. *)
From Coq Require Import Lia.
From Coq Require Import ZifyBool ZifyNat ZifyN.
From Verif Require Import PyBase PyBaseFacts IdModel LineModel DateModel RefModel TreeModel TreeSpec StructModel GazModel HtmlModel HtmlSpec HtmlProofs HtmlProofs2 HtmlProofs3 TxtModel TxtSpec TrimSpec TxtProofs.
Local Open Scope Z_scope.

Lemma word_solid c : wordlike c -> blank c = false.
Proof.
  intros [N F]. destruct (blank c) eqn:B; [|reflexivity]. apply blank_spaces in B. exfalso. destruct c as [|x c]; [contradiction|]. inversion F as [|y z Fx _]; subst. unfold no_space in B. cbn [List.filter] in B. rewrite Fx in B. discriminate.
Qed.
Lemma only_blank c : spaces_only c -> blank c = true.
Proof. intros [_ F]. apply spaces_blank. unfold no_space. induction F as [|x c X F IH]; [reflexivity|]. cbn [List.filter]. rewrite X. exact IH. Qed.
Lemma drop_last p c : drop_blank_last (p ++ [c]) = if blank c then p else p ++ [c].
Proof.
  induction p as [|d p IH]; [reflexivity|]. cbn [app]. destruct (p ++ [c]) as [|e q] eqn:E; [destruct p; discriminate E|].
  change (drop_blank_last (d :: e :: q)) with (d :: drop_blank_last (e :: q)). rewrite IH. destruct (blank c); reflexivity.
Qed.
Lemma ends_word p c : wordlike c -> ~ ends_blank (concat (p ++ [c])) /\ concat (p ++ [c]) <> [].
Proof.
  intros [N F]. rewrite concat_app. cbn [concat]. rewrite app_nil_r. destruct c as [|x c] using rev_ind; [now elim N|]. apply Forall_app in F as [_ F]. inversion F as [|? ? X]; subst. split.
  - intros (q & y & E & Y). rewrite app_assoc in E. apply app_inj_tail in E as [_ <-]. congruence.
  - intros E. apply app_eq_nil in E as [_ E]. apply app_eq_nil in E as [_ E]. discriminate.
Qed.
Lemma neat_app a b : neat (a ++ b) -> neat a /\ neat b.
Proof.
  induction a as [|c a IH]; cbn [app neat]; [tauto|]. intros (C & S & H). apply IH in H as [A B]. split; [|exact B]. split; [exact C|]. split; [|exact A]. intros D. specialize (S D). destruct a; [exact I|exact S].
Qed.
Lemma neat_before p c b : neat (p ++ c :: b) -> spaces_only c -> p = [] \/ exists q d, p = q ++ [d] /\ wordlike d.
Proof.
  intros H S. destruct p as [|d p] using rev_ind; [now left|]. right. exists p, d. split; [reflexivity|]. rewrite <- app_assoc in H. cbn [app] in H. apply neat_app in H as [_ (D & W & _)].
  destruct D as [D|D]; [|exact D]. specialize (W D). destruct W as [_ W]. destruct S as [N S]. destruct c as [|x c]; [now elim N|]. inversion W as [|? ? X]; subst. inversion S as [|? ? Y]; subst. congruence.
Qed.
Definition fine_line (width : nat) (l : pystr) : Prop := l <> [] /\ (ends_blank l -> List.length l = width).
Lemma words_fine width p : p = [] \/ (exists q d, p = q ++ [d] /\ wordlike d) -> p = [] \/ fine_line width (concat p).
Proof. intros [E|(q & d & -> & D)]; [now left|right]. destruct (ends_word q d D) as [A B]. split; [exact B|]. intros C. contradiction. Qed.
Lemma neat_line width a : neat a -> drop_blank_last a = [] \/ fine_line width (concat (drop_blank_last a)).
Proof.
  intros H. destruct a as [|c a _] using rev_ind; [now left|]. rewrite drop_last. pose proof (proj2 (neat_app _ _ H)) as (C & _ & _). destruct C as [C|C].
  - rewrite (only_blank c C). apply words_fine. exact (neat_before a c [] H C).
  - rewrite (word_solid c C). apply words_fine. right. eauto.
Qed.
Lemma wrap_trimmed hyphens width : (0 < width)%nat -> forall fuel started chunks lines, neat chunks -> wrap_chunks fuel hyphens width started chunks = Ok lines -> Forall (fine_line width) lines.
Proof.
  intros W. induction fuel as [|fuel IH]; intros started chunks lines Nn H; [discriminate H|]. destruct chunks as [|first others]; [injection H as <-; constructor|]. cbn [wrap_chunks] in H.
  set (chunks := if started && blank first then others else first :: others) in H. assert (N' : neat chunks) by (unfold chunks; destruct (started && blank first); [exact (proj2 (proj2 Nn))|exact Nn]). clearbody chunks.
  destruct (take_chunks width chunks) as [cur rest] eqn:T. destruct (take_spec _ _ _ _ T) as (E & L1 & L2).
  set (p := match rest with [] => (cur, []) | c :: t => if (width <? List.length c)%nat then (cur ++ [firstn (break_at hyphens c (width - List.length (concat cur))) c], skipn (break_at hyphens c (width - List.length (concat cur))) c :: t) else (cur, rest) end) in *.
  assert (P : (drop_blank_last (fst p) = [] \/ fine_line width (concat (drop_blank_last (fst p)))) /\ neat (snd p)).
  { subst chunks. pose proof (neat_app _ _ N') as [Nc Nr]. unfold p. destruct rest as [|c t]; [split; [now apply neat_line|exact I]|]. destruct (Nat.ltb_spec width (List.length c)) as [B|B]; [|split; [now apply neat_line|exact Nr]].
    set (k := (width - List.length (concat cur))%nat) in *. destruct (break_bound hyphens c k) as [B1 B2]. set (j := break_at hyphens c k) in *. cbn [fst snd]. rewrite drop_last. destruct Nr as (C & S & Nt).
    assert (Sk : skipn j c <> []) by (intros Q; apply (f_equal (@List.length N)) in Q; rewrite skipn_length in Q; cbn in Q; lia).
    assert (Fs : forall q, Forall q c -> Forall q (firstn j c) /\ Forall q (skipn j c)) by (intros q Q; rewrite <- (firstn_skipn j c) in Q; now apply Forall_app in Q).
    split.
    - destruct (Nat.eq_dec k 0) as [K|K].
      + replace j with 0%nat by lia. cbn [firstn]. change (blank []) with true. cbn iota. right. assert (Lc : List.length (concat cur) = width) by lia. split; [|auto]. intros Q. rewrite Q in Lc. cbn in Lc. lia.
      + assert (Fn : firstn j c <> []) by (intros Q; apply (f_equal (@List.length N)) in Q; rewrite firstn_length in Q; cbn in Q; lia). destruct C as [[Cn C]|[Cn C]].
        * rewrite (only_blank (firstn j c)) by (split; [exact Fn|exact (proj1 (Fs _ C))]). apply words_fine. exact (neat_before cur c t N' (conj Cn C)).
        * assert (Wd : wordlike (firstn j c)) by (split; [exact Fn|exact (proj1 (Fs _ C))]). rewrite (word_solid _ Wd). apply words_fine. right. eauto.
    - split; [|split; [|exact Nt]].
      + destruct C as [[Cn C]|[Cn C]]; [left|right]; (split; [exact Sk|exact (proj2 (Fs _ C))]).
      + intros [_ Sp]. apply S. destruct C as [C|[Cn C]]; [exact C|]. exfalso. pose proof (proj2 (Fs _ C)) as Q. destruct (skipn j c); [now elim Sk|]. inversion Q as [|? ? X]; subst. inversion Sp as [|? ? Y]; subst. congruence. }
  destruct p as [line more]. cbn [fst snd] in P. destruct P as [P Nm]. destruct (drop_blank_last line) as [|x l].
  - exact (IH _ _ _ Nm H).
  - destruct (wrap_chunks fuel hyphens width true more) as [ls|] eqn:R; [|discriminate H]. injection H as <-. constructor; [|exact (IH _ _ _ Nm R)]. destruct P as [P|P]; [discriminate P|exact P].
Qed.
Lemma printed_trimmed w s indent width o : 0 < width -> neat (split_chunks w s) -> wrapped_print w s indent width = Ok o ->
  Forall (fun p => ends_blank (snd p) -> Z.of_nat (List.length (snd p)) = width) o.
Proof.
  intros W N H. unfold wrapped_print in H. destruct (Z.eqb_spec width 0); [lia|]. destruct (wrap w s (width - Z.of_nat (List.length indent))) as [lines|] eqn:E; [|discriminate H]. injection H as <-.
  unfold wrap in E. destruct (Z.leb_spec (width - Z.of_nat (List.length indent)) 0) as [L|L]; [discriminate E|]. apply wrap_trimmed in E; [|lia|exact N].
  pose proof (print_lines_rows lines indent) as R. revert R E. generalize (print_lines indent lines). clear N. induction lines as [|l ls IH]; intros o R F; inversion R as [|p q o' l' (_ & i & Ep & El) R']; subst; inversion F as [|? ? [Fn Fl] F']; subst; constructor; auto.
  intros (q & c & Eq & C). rewrite Ep in Eq |- *. destruct l as [|x l _] using rev_ind; [now elim Fn|]. rewrite app_assoc in Eq. apply app_inj_tail in Eq as [_ ->]. rewrite app_length, Fl by (exists l, c; auto). lia.
Qed.
