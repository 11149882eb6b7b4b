(* Lists of references and quotes, read forwards. *)
From Coq Require Import Lia.
From Verif Require Import PyBase PyBaseFacts UnicodeAlnum NumModel IdModel LineModel DateModel RefModel RefSpec TreeModel StructModel SemModel GramModel GramSpec PegModel PegSpec PegSpec2 PegSpec3 PegProofs PegProofs2 PegProofs7 PegProofs10 PegProofs13 PegProofs14 PegProofs22 PegProofs23 PegProofs24 PegProofs25 PegProofs26 PegProofs27 PegProofs28 PegProofs29 PegProofs30 PegProofs31 PegProofs32 PegProofs33 CiteSpec CiteProofs CiteProofs2 CiteProofs4.
Local Open Scope Z_scope.

(** * References relative to the one before *)

Lemma if_same {A} (b : bool) (x : A) : (if b then x else x) = x. Proof. now destruct b. Qed.
Lemma filled_relative last r f : r_act r = None -> filled last r f -> relative_to r last = f.
Proof.
  intros A (i & (I & N & B) & F). destruct r as [ra r1 r2 r3 r4], last as [la l1 l2 l3 l4], f as [fa f1 f2 f3 f4]. cbn in A. subst ra.
  pose proof (F 0%nat ltac:(lia)) as F0. pose proof (F 1%nat ltac:(lia)) as F1. pose proof (F 2%nat ltac:(lia)) as F2. pose proof (F 3%nat ltac:(lia)) as F3. pose proof (F 4%nat ltac:(lia)) as F4. clear F.
  assert (Q : fa = la). { destruct i as [|i]; [now destruct N|]. change (0 <? Datatypes.S i)%nat with true in F0. destruct fa, la; cbn in F0; congruence. }
  subst fa. unfold relative_to. cbn [r_act r_article r_paragraph r_point r_subpoint].
  destruct i as [|[|[|[|[|i]]]]]; [now destruct N| | | | |lia]; cbn in N, F0, F1, F2, F3, F4; subst f1 f2 f3 f4.
  - destruct r1; [now destruct N| |]; now rewrite !if_same.
  - pose proof (B 1%nat ltac:(lia)) as B1. cbn in B1. subst r1. destruct r2; [now destruct N| |]; now rewrite ?if_same.
  - pose proof (B 1%nat ltac:(lia)) as B1. pose proof (B 2%nat ltac:(lia)) as B2. cbn in B1, B2. subst r1 r2. destruct r3; [now destruct N| |]; now rewrite ?if_same.
  - pose proof (B 1%nat ltac:(lia)) as B1. pose proof (B 2%nat ltac:(lia)) as B2. pose proof (B 3%nat ltac:(lia)) as B3. cbn in B1, B2, B3. subst r1 r2 r3. destruct r4; [now destruct N| |]; now rewrite ?if_same.
Qed.
Lemma cites_act n ls r s e out : cites n ls r s e out -> Forall (fun o => r_act (or_reference o) = r_act r) out /\ out <> [].
Proof.
  intros C. assert (W : forall r n v, r_act (with_part r n v) = r_act r) by (intros r' [|[|[|[|]]]] v; reflexivity).
  induction C as [n r s e|n ls r s e out C [IH N]|n x ls r s e out C [IH N]|n x y l ls r s e out C [IH N]].
  - split; [now repeat constructor|discriminate].
  - now split.
  - split; [|exact N]. now rewrite W in IH.
  - split; [constructor; [apply W|exact IH]|discriminate].
Qed.
Lemma reference_acts act k w out : reference_listed act k w out -> Forall (fun o => r_act (or_reference o) = act) out /\ out <> [].
Proof. intros (a & p & q & s & la & lp & lq & ls & _ & _ & _ & _ & _ & _ & C). exact (cites_act _ _ _ _ _ _ C). Qed.
Lemma all_filled_chain last raw out final : all_filled last raw out final -> Forall (fun o => r_act (or_reference o) = None) raw -> relative_chain last raw = (out, final).
Proof.
  intros F. induction F as [last|last s e r f l out final F A IH]; intros N; [reflexivity|]. inversion N; subst. cbn [relative_chain or_reference]. rewrite (filled_relative last r f) by assumption. rewrite IH by assumption. reflexivity.
Qed.
Lemma all_filled_some last raw out final : all_filled last raw out final -> raw <> [] -> out <> [].
Proof. intros [|]; [easy|discriminate]. Qed.
Section Total.
Variable total : Z.
Lemma chain_starts last k t refs s : chain_written last k t refs -> starts (t ++ s).
Proof. intros L. destruct L as [last k w raw out final R _|last k w raw out final p t l R _ _ _]; [|rewrite <- app_assoc]; eapply reference_starts; exact R. Qed.
Lemma chain_some last k t refs : chain_written last k t refs -> refs <> [].
Proof.
  intros L. destruct L as [last k w raw out final R F|last k w raw out final p t l R F _ _]; apply reference_acts in R as [_ N]; apply all_filled_some in F; auto. destruct out; [easy|discriminate].
Qed.
Lemma chain_reads s s' last k t refs : silent total s -> g_separator s = Some (tt, s') -> partless total s' -> chain_written last k t refs ->
  pos_of total (t ++ s) = k -> forall n t0, ws t0 = t ++ s -> (length t0 <= n)%nat ->
  exists g gs, p_rounds n (g_listed_reference total) t0 = (g :: gs, s') /\ convert_multiple_loop last (g :: gs) = Ok refs.
Proof.
  intros S G P L. induction L as [last k w raw out final R Fi|last k w raw out final p t l R Fi Sp L IH]; intros K n t0 E N.
  - destruct (listed_reference_reads total None k w raw s R K S) as (g & Q & C). apply listed_length in R as R'. assert (N' : (0 < length t0)%nat) by (pose proof (ws_length t0) as H; rewrite E, app_length in H; lia).
    destruct n as [|n]; [lia|]. exists g, []. cbn [p_rounds convert_multiple_loop]. unfold g_listed_reference at 1. rewrite <- E, reference_rule_ws in Q. rewrite (bind_yes _ _ _ _ _ Q), (bind_yes _ _ _ _ _ G). cbn [p_ret].
    assert (Z : p_rounds n (g_listed_reference total) s' = ([], s')) by (destruct n; [reflexivity|]; cbn [p_rounds]; unfold g_listed_reference; now rewrite bind_no by now apply reference_no).
    rewrite Z. split; [reflexivity|]. rewrite C. cbn [bind]. apply reference_acts in R as [R _]. rewrite (all_filled_chain _ _ _ _ Fi R). now rewrite app_nil_r.
  - pose proof (chain_starts _ _ _ _ s L) as B. destruct (starts_opens _ B) as [O _]. rewrite <- !app_assoc in *.
    destruct (listed_reference_reads total None k w raw (p ++ t ++ s) R K (separator_silent total _ _ Sp O)) as (g & Q & C). destruct (separator_listed p (t ++ s) Sp B) as (q & Y & W).
    apply listed_length in R as R'. pose proof (ws_length t0) as H. rewrite E, app_length in H.
    destruct n as [|n]; [lia|]. destruct (takes_separator _ _ _ Y) as (v & V). apply (f_equal (@length BinNums.N)) in V. rewrite (app_length v) in V.
    destruct (IH ltac:(rewrite !pos_app in *; lia) n q W ltac:(lia)) as (g' & gs & D & F).
    exists g, (g' :: gs). cbn [p_rounds]. unfold g_listed_reference at 1. rewrite <- E, reference_rule_ws in Q. rewrite (bind_yes _ _ _ _ _ Q), (bind_yes _ _ _ _ _ Y). cbn [p_ret]. rewrite D. split; [reflexivity|].
    cbn [convert_multiple_loop] in *. rewrite C. cbn [bind]. apply reference_acts in R as [R _]. rewrite (all_filled_chain _ _ _ _ Fi R). rewrite F. reflexivity.
Qed.
Lemma rounds_fuel {A} (p : parser A) : eats p -> forall n m s, (length s <= n)%nat -> (length s <= m)%nat -> p_rounds n p s = p_rounds m p s.
Proof.
  intros P. assert (N : p [] = None) by (destruct (p []) as [[x r]|] eqn:E; [|reflexivity]; apply eats_length in E; [cbn in E; lia|exact P]).
  induction n as [|n IH]; intros m s Ln Lm.
  - destruct s; [|cbn in Ln; lia]. destruct m; [reflexivity|]. cbn [p_rounds]. now rewrite N.
  - destruct m as [|m]; [destruct s; [|cbn in Lm; lia]; cbn [p_rounds]; now rewrite N|]. cbn [p_rounds]. destruct (p s) as [[x r]|] eqn:E; [|reflexivity]. apply eats_length in E; [|exact P]. now rewrite (IH m r) by lia.
Qed.
Lemma eats_listed : eats (g_listed_reference total).
Proof. apply eats_first; [apply eats_ends; peg|intros; peg]. Qed.
Lemma chain_many1 s s' last k t refs : silent total s -> g_separator s = Some (tt, s') -> partless total s' -> chain_written last k t refs -> pos_of total (t ++ s) = k ->
  exists gs, p_many1 (g_listed_reference total) (u8 " " ++ t ++ s) = Some (gs, s') /\ gs <> [] /\ convert_multiple_loop last gs = Ok refs.
Proof.
  intros S G P L K. destruct (starts_opens _ (chain_starts _ _ _ _ s L)) as [_ W].
  destruct (chain_reads s s' last k t refs S G P L K (Datatypes.S (length (u8 " " ++ t ++ s))) (u8 " " ++ t ++ s) W ltac:(lia)) as (g & gs & D & F).
  exists (g :: gs). split; [|split; [discriminate|exact F]]. unfold p_many1. cbn [p_rounds] in D. destruct (g_listed_reference total (u8 " " ++ t ++ s)) as [[x r]|] eqn:E; [|discriminate D].
  rewrite (bind_yes _ _ _ _ _ E). destruct (p_rounds _ _ r) as [l q] eqn:R in D. injection D as -> -> ->. apply eats_length in E as EL; [|apply eats_listed].
  rewrite (bind_yes _ _ _ gs s'); [reflexivity|]. unfold p_many. f_equal. rewrite <- R. apply rounds_fuel; [apply eats_listed|lia|lia].
Qed.
End Total.
