From Coq Require Import Lia.
From Coq Require Import ZifyBool ZifyNat ZifyN.
From Verif Require Import Unicode PyBase PyBaseFacts NumModel NumProofs DateModel DateSpec IdModel IdProofs RefModel RefSpec TreeModel SemModel GramModel GramSpec GramProofs GramProofs3 PegModel PegSpec PegProofs PegProofs2 PegProofs3 PegProofs4 PegProofs5 PegProofs6 PegProofs7 PegProofs8 PegProofs10 PegProofs11 PegProofs12 PegProofs13.
Local Open Scope Z_scope.

Section Text.
Variable T : pystr.
Let total := Z.of_nat (length T).
Ltac walk H :=
  lazymatch type of H with
  | p_bind ?p _ ?s = Some _ =>
      let x := fresh "x" in let t := fresh "s" in let E := fresh "E" in
      apply bind_inv in H as (x & t & E & H);
      assert (suf T t) by (let K := fresh in assert (K : takes p) by peg; eapply suf_trans; [|exact (K _ _ _ E)]; assumption);
      walk H
  | p_ret _ _ = Some _ => apply ret_inv in H as [? ?]
  | _ => idtac
  end.
Notation reads := (reads T).
Notation has := (has T).

(** * How sentences of other kinds end *)

Definition closes (w : pystr) {A} (p : parser A) : Prop := forall s x r, suf T s -> p s = Some (x, r) -> exists u, T = u ++ w ++ r.
Lemma closes_bind w {A B} (p : parser A) (q : A -> parser B) : takes p -> (forall x, closes w (q x)) -> closes w (p_bind p q).
Proof. intros K Q s x r S H. apply bind_inv in H as (y & t & E & H). eapply Q; [|exact H]. eapply suf_trans; [exact S|]. eapply K; eauto. Qed.
Lemma closes_or w {A} (p q : parser A) : closes w p -> closes w q -> closes w (p <|> q).
Proof. intros P Q s x r S H. apply or_inv in H as [H|[_ H]]; eauto. Qed.
Lemma closes_map w {A B} (f : A -> B) p : closes w p -> closes w (p_map f p).
Proof. intros P s x r S H. apply map_inv in H as (y & H & _). eauto. Qed.
Lemma closes_rule w {A} (p : parser A) : closes w p -> closes w (p_rule p).
Proof. intros P s x r S H. eapply P; [|exact H]. now apply suf_ws. Qed.
Lemma closes_tok w {A} (x : A) : closes w (p_tok w ;~ p_ret x).
Proof.
  intros s y r S H. apply bind_inv in H as (z & t & E & H). apply ret_inv in H as [-> ->]. apply tok_inv in E as (_ & E & _). apply suf_ws in S. destruct S as [u U]. exists u. now rewrite U, E.
Qed.
Notation ends_in_colon := (ends_in_colon T).
Lemma ws_blank s : ws s = [] -> Forall (fun c => isspace_chr c = true) s.
Proof. unfold ws. induction s as [|c s IH]; [constructor|]. cbn [drop_while]. destruct (isspace_chr c) eqn:E; [|discriminate]. constructor; auto. Qed.
Lemma end_colon {A} (p : parser A) : closes (u8 ":") p -> forall s x r, suf T s -> to_the_end p s = Some (x, r) -> ends_in_colon.
Proof.
  intros P s x r S H. unfold to_the_end in H. apply bind_inv in H as (y & t & E & H). apply bind_inv in H as (z & t' & E' & H). apply P in E as [u U]; [|exact S].
  unfold p_eof in E'. destruct (ws t) eqn:W; [|discriminate]. exists u, t. split; [exact U|]. now apply ws_blank.
Qed.
Ltac close := first [apply closes_tok|apply closes_bind; [peg|intros ?; cbv beta; close]].
Lemma block_colon : closes (u8 ":") (g_block_amendment total).
Proof.
  apply closes_rule, closes_bind; [unfold g_the_act, g_upper_or_lower_az; peg|intros a]. apply closes_bind; [peg|intros ?]. apply closes_map, closes_or; [apply closes_or|]; close.
Qed.
Lemma block_subtitle_colon : closes (u8 ":") (g_block_amendment_with_subtitle total).
Proof.
  apply closes_rule, closes_bind; [unfold g_the_act, g_upper_or_lower_az; peg|intros a]. apply closes_bind; [peg|intros ?]. apply closes_map, closes_or; [apply closes_or|]; close.
Qed.
Lemma suffix_alcim s x r : suf T s -> g_subtitle_token s = Some (x, r) -> has (u8 "alcím").
Proof.
  intros S H. unfold g_subtitle_token, p_rule in H. apply suf_ws in S. apply or_inv in H as [H|[_ H]].
  - apply map_inv in H as (y & H & _). apply toks_has with (T := T) in H as (w & I & u & v & E); [|exact S].
    assert (W : exists z, w = u8 "alcím" ++ z).
    { destruct I as [<-|[<-|[<-|[<-|[<-|[]]]]]]; eexists; reflexivity. }
    destruct W as [z ->]. exists u, (z ++ v). rewrite E, <- !app_assoc. reflexivity.
  - apply bind_inv in H as (y & t & E & _). exact (tok_has _ _ _ _ _ S E).
Qed.
Lemma with_subtitle_says s x r : suf T s -> g_reference_with_subtitle total s = Some (x, r) -> has (u8 "alcím").
Proof.
  intros S H. unfold g_reference_with_subtitle, reference_of in H. apply map_inv in H as ([l sp] & H & _). unfold p_span in H. match type of H with (match ?p (ws s) with _ => _ end) = _ => destruct (p (ws s)) as [[l' q]|] eqn:E; [|discriminate] end.
  clear H. apply suf_ws in S. apply or_inv in E as [E|[_ E]]; [apply or_inv in E as [E|[_ E]]|].
  - apply bind_inv in E as (y & t & E & _). eapply suffix_alcim; eauto.
  - assert (K : takes g_subtitle_token) by (unfold g_subtitle_token; peg). walk E. eapply suffix_alcim; [|eassumption]. assumption.
  - apply map_inv in E as (y & E & _). eapply suffix_alcim; eauto.
Qed.
Lemma block_subtitle_says : reads (fun _ => has (u8 "alcím")) (g_block_amendment_with_subtitle total).
Proof.
  apply reads_rule. intros s x r S H. walk H. apply map_inv in H as ([am ins] & H & _).
  assert (K : takes (g_reference_with_subtitle total)) by peg.
  apply or_inv in H as [H|[_ H]]; [apply or_inv in H as [H|[_ H]]|]; walk H; (eapply with_subtitle_says; [|eassumption]; assumption).
Qed.

(** * Dates of entering into force *)

Lemma month_says s x r : suf T s -> g_month s = Some (x, r) -> exists m, In m month_names /\ has m.
Proof. intros S H. unfold g_month, p_rule in H. apply suf_ws in S. exact (toks_has _ _ _ _ _ S H). Qed.
Lemma date_says s x r : suf T s -> g_date_rule s = Some (x, r) -> exists m, In m month_names /\ has m.
Proof. intros S H. unfold g_date_rule, p_rule in H. apply suf_ws in S. assert (K : takes g_month) by (unfold g_month; peg). walk H. eapply month_says; [|eassumption]. assumption. Qed.
Lemma ordinal_total s x r : g_hungarian_ordinal s = Some (x, r) -> fine (text_to_int_hun x) /\ x <> [].
Proof.
  intros H. unfold g_hungarian_ordinal, p_rule in H. apply toks_inv in H as (w & I & H). apply tok_inv in H as (-> & _).
  assert (F : Forall (fun w => fine (text_to_int_hun w) /\ w <> []) g_ordinals) by (unfold g_ordinals; repeat (constructor; [split; [eexists; vm_compute; reflexivity|discriminate]|]); constructor).
  rewrite Forall_forall in F. now apply F.
Qed.
Lemma dotted_total s x r : g_number_with_dot s = Some (x, r) -> fine (py_int x).
Proof.
  intros H. unfold g_number_with_dot, p_rule in H. apply bind_inv in H as (n & t & N & H). apply bind_inv in H as (y & t' & _ & H). apply ret_inv in H as [-> ->]. apply number_spells in N as [_ N]. now apply digits_int.
Qed.
Lemma after_total s x r : g_after_publication s = Some (x, r) -> fine (convert_after_publication_date x).
Proof.
  intros H. unfold g_after_publication, p_rule in H. apply bind_inv in H as (u & s1 & _ & H). apply bind_inv in H as (o & s2 & E & H). apply bind_inv in H as (v & s3 & _ & H). apply ret_inv in H as [-> ->].
  unfold convert_after_publication_date. apply opt_inv in E as [(y & -> & E)|(-> & _)]; [|eexists; reflexivity].
  apply or_inv in E as [E|[_ E]]; apply map_inv in E as (z & E & ->); cbn [gf_as_number gf_as_text].
  - apply ordinal_total in E as [[n E] N]. destruct z; [contradiction|]. rewrite E. cbn [bind]. eexists. reflexivity.
  - apply dotted_total in E as [n ->]. cbn [bind]. eexists. reflexivity.
Qed.
Lemma day_total s x r : g_day_in_month s = Some (x, r) -> fine (convert_day_in_month x).
Proof.
  intros H. unfold g_day_in_month, p_rule in H. apply bind_inv in H as (u & s1 & _ & H). apply bind_inv in H as (o & s2 & O & H). apply bind_inv in H as (v & s3 & _ & H). apply bind_inv in H as (d & s4 & D & H).
  apply bind_inv in H as (w & s5 & _ & H). apply ret_inv in H as [-> ->].
  assert (M : fine (match o with Some (c :: t) => text_to_int_hun (c :: t) | _ => Ok 1 end)).
  { apply opt_inv in O as [(y & -> & O)|(-> & _)]; [|eexists; reflexivity]. apply ordinal_total in O as [O N]. destruct y; [contradiction|exact O]. }
  unfold convert_day_in_month. apply or_inv in D as [D|[_ D]]; apply map_inv in D as (z & D & ->); cbn [gy_month gy_day_as_number gy_day_as_text]; destruct M as [m ->]; cbn [bind].
  - apply ordinal_total in D as [[n D] N]. destruct z; [contradiction|]. rewrite D. cbn [bind]. eexists. reflexivity.
  - apply dotted_total in D as [n ->]. cbn [bind]. eexists. reflexivity.
Qed.
Hypothesis quiet : ~ has (u8 "alpont").
Lemma enforcement_total : ~ (has (u8 "lép hatályba") /\ exists m, In m month_names /\ has m) -> reads converts_all (g_enforcement_date total).
Proof.
  intros N. apply reads_rule. intros s x r S H. walk H. destruct x3 as [[ex af] dm]. apply ret_inv in H as [-> ->]. apply many_tame in E1; [|assumption].
  unfold converts_all. cbn [post_order flat_map app]. constructor; [|constructor].
  assert (L : has (u8 "lép hatályba")) by (eapply tok_has; [|eassumption]; assumption).
  assert (Nm : ~ exists m, In m month_names /\ has m) by auto.
  assert (Ex : Forall (tame_reference T) (match x1 with Some e => [e] | None => [] end)).
  { apply opt_inv in E0 as [(y & -> & E0)|(-> & _)]; [|constructor]. walk E0. subst. constructor; [|constructor]. eapply reference_tame; [|eassumption]. assumption. }
  assert (Nr : x5 = None).
  { apply opt_inv in E4 as [(y & -> & E4)|(-> & _)]; [|reflexivity]. unfold g_inline_repeal, p_rule in E4. assert (Sw : suf T (ws s4)) by (now apply suf_ws). walk E4.
    exfalso. apply Nm. eapply date_says; [|eassumption]. assumption. }
  subst x5.
  assert (D : ex = None /\ (forall d, af = Some d -> fine (convert_after_publication_date d)) /\ (forall d, dm = Some d -> fine (convert_day_in_month d)) /\ (af <> None \/ dm <> None)).
  { apply or_inv in E2 as [E2|[_ E2]]; [apply or_inv in E2 as [E2|[_ E2]]|]; apply map_inv in E2 as (y & E2 & D); injection D as -> -> ->.
    - exfalso. apply Nm. eapply date_says; [|eassumption]. assumption.
    - apply after_total in E2. repeat split; try discriminate; [now intros d [= <-]|left; discriminate].
    - apply day_total in E2. repeat split; try discriminate; [now intros d [= <-]|right; discriminate]. }
  destruct D as (-> & Da & Dd & Or). apply both_total; [apply semantics_total|apply outgoings_total].
  - unfold enforcement_to_enforcement.
    assert (W : fine (match af, dm with Some f, _ => convert_after_publication_date f | None, Some d => convert_day_in_month d | None, None => Err ValueError end)).
    { destruct af as [f|]; [auto|]. destruct dm as [d|]; [auto|]. destruct Or; contradiction. }
    destruct W as [w W].
    match goal with |- fine (bind ?e _) => replace e with (Ok w) by (rewrite <- W; now destruct af, dm) end. cbn [bind].
    destruct x2 as [|g gs]; [eexists; reflexivity|]. destruct (multiple_total T quiet None (g :: gs) E1) as [l ->]. eexists. reflexivity.
  - unfold enforcement_to_reference. destruct (multiple_total T quiet None _ E1) as [l ->]. cbn [bind]. destruct (multiple_total T quiet None _ Ex) as [l' ->]. eexists. reflexivity.
Qed.
End Text.
Lemma start_total T : unsuspected T -> reads T converts_all (g_start (Z.of_nat (length T))).
Proof.
  intros (Q1 & Q2 & Q3 & Q4). apply reads_rule. repeat apply reads_or.
  - intros s x r S H. assert (N : ~ (amends T /\ inserts T)).
    { intros N. apply Q3. split; [|exact N]. eapply end_colon; [apply block_colon|exact S|exact H]. }
    revert s x r S H. apply reads_end. now apply block_total.
  - intros s x r S H. exfalso. apply Q2. split; [eapply end_colon; [apply block_subtitle_colon|exact S|exact H]|]. revert s x r S H. apply reads_end, block_subtitle_says.
  - apply reads_end. now apply structural_block_total.
  - apply reads_end. now apply text_total.
  - apply reads_end. now apply title_total.
  - apply reads_end. now apply enforcement_total.
  - apply reads_end. now apply repeal_total.
  - apply reads_end. now apply structural_repeal_total.
  - intros s x r S H. apply map_inv in H as (l & H & ->). assert (F : Forall converts_all l).
    { revert s l r S H. apply reads_end, reads_many1; [peg|now apply simple_total]. }
    unfold converts_all. cbn. apply Forall_app. split; [|constructor; [now exists []|constructor]]. clear H. induction F as [|t l Ft F IH]; [constructor|]. cbn. apply Forall_app. auto.
Qed.
Theorem analyzer_total s : unsuspected s -> visible s -> exists a, grammar_analyzer s = Some a.
Proof.
  intros Q V. apply parses in V as [t V]. unfold grammar_analyzer, analyzer_of. rewrite V. unfold grammar_parse in V. destruct (g_start _ s) as [[t' r]|] eqn:E; [|discriminate]. injection V as <-.
  apply (start_total s Q) in E; [|apply suf_refl]. apply tree_total in E as [l ->]. eexists. reflexivity.
Qed.
