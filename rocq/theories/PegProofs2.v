From Coq Require Import Lia.
From Coq Require Import ZifyBool ZifyNat ZifyN.
From Verif Require Import Unicode PyBase PyBaseFacts NumModel IdModel GramModel PegModel PegProofs.
Local Open Scope Z_scope.

(** * No rule but [az] ends with white space *)

Definition firm {A} (p : parser A) : Prop := forall s x r, p s = Some (x, r) -> r = s \/ solid s r.
Lemma firm_takes {A} (p : parser A) : firm p -> takes p.
Proof. intros P s x r H. apply P in H as [->|H]; [apply suf_refl|now apply solid_suf]. Qed.
Lemma firm_ends {A} (p : parser A) : ends p -> firm p.
Proof. intros P s x r H. right. eauto. Qed.
Lemma firm_ret {A} (x : A) : firm (p_ret x).
Proof. intros s y r H. apply ret_inv in H as [_ ->]. now left. Qed.
Lemma firm_bind {A B} (p : parser A) (f : A -> parser B) : firm p -> (forall x, firm (f x)) -> firm (p_bind p f).
Proof.
  intros P F s x r H. apply bind_inv in H as (y & s' & E & H). apply P in E. apply F in H.
  destruct E as [->|E], H as [->|H]; auto. right. eapply suf_solid; [apply solid_suf|]; eauto.
Qed.
Lemma ends_bind_firm {A B} (p : parser A) (f : A -> parser B) : ends p -> (forall x, firm (f x)) -> ends (p_bind p f).
Proof.
  intros P F s x r H. apply bind_inv in H as (y & s' & E & H). apply P in E. apply F in H.
  destruct H as [->|H]; auto. eapply suf_solid; [apply solid_suf|]; eauto.
Qed.
Lemma firm_or {A} (p q : parser A) : firm p -> firm q -> firm (p <|> q).
Proof. intros P Q s x r H. apply or_inv in H as [H|[_ H]]; eauto. Qed.
Lemma firm_opt {A} (p : parser A) : firm p -> firm (p_opt p).
Proof. intros P s x r H. apply opt_inv in H as [(y & _ & H)|(_ & -> & _)]; eauto. Qed.
Lemma firm_map {A B} (f : A -> B) p : firm p -> firm (p_map f p).
Proof. intros P s x r H. apply map_inv in H as (y & H & _). eauto. Qed.
Lemma firm_many {A} (p : parser A) : firm p -> firm (p_many p).
Proof.
  intros P s x r H. unfold p_many in H. remember (length s) as n eqn:L. clear L. assert (E : p_rounds n p s = (x, r)) by congruence. clear H.
  revert s x r E. induction n as [|n IH]; intros s l r; cbn [p_rounds]; [intros [= _ <-]; now left|].
  destruct (p s) as [[x s']|] eqn:E; [|intros [= _ <-]; now left].
  destruct (p_rounds n p s') as [l' r'] eqn:R. intros [= _ <-]. apply P in E. apply IH in R.
  destruct E as [->|E], R as [->|R]; auto. right. eapply suf_solid; [apply solid_suf|]; eauto.
Qed.
Lemma ends_many1 {A} (p : parser A) : ends p -> ends (p_many1 p).
Proof.
  intros P. apply ends_bind_firm; [exact P|]. intros x. apply firm_bind; [apply firm_many; now apply firm_ends|]. intros l. apply firm_ret.
Qed.
Lemma firm_not {A} (p : parser A) : firm (p_not p).
Proof. intros s x r H. apply not_inv in H as [-> _]. now left. Qed.
Lemma firm_and {A} (p : parser A) : firm (p_and p).
Proof. intros s x r H. apply and_inv in H as [-> _]. now left. Qed.

Create HintDb peg.
Ltac peg :=
  lazymatch goal with
  | |- ends (p_bind _ _) =>
      first [ solve [apply ends_bind_ret; peg]
            | solve [apply ends_bind; [peg|intros; peg]]
            | solve [apply ends_bind_firm; [peg|intros; peg]] ]
  | |- ends (_ <|> _) => apply ends_or; peg
  | |- ends (p_map _ _) => apply ends_map; peg
  | |- ends (p_rule _) => apply ends_rule; peg
  | |- ends (p_many1 _) => apply ends_many1; peg
  | |- ends (p_tok _) => apply ends_tok; reflexivity
  | |- ends (p_toks _) => apply ends_toks; reflexivity
  | |- ends _ => auto with peg nocore
  | |- firm (p_ret _) => apply firm_ret
  | |- firm (p_opt _) => apply firm_opt; peg
  | |- firm (p_many _) => apply firm_many; peg
  | |- firm (p_not _) => apply firm_not
  | |- firm (p_and _) => apply firm_and
  | |- firm (p_bind _ _) => first [solve [apply firm_bind; [peg|intros; peg]] | solve [apply firm_ends; peg]]
  | |- firm (p_map _ _) => apply firm_map; peg
  | |- firm (_ <|> _) => apply firm_or; peg
  | |- firm _ => apply firm_ends; peg
  | |- takes (p_ret _) => apply takes_ret
  | |- takes (p_bind _ _) => apply takes_bind; [peg|intros; peg]
  | |- takes (_ <|> _) => apply takes_or; peg
  | |- takes (p_map _ _) => apply takes_map; peg
  | |- takes (p_rule _) => apply takes_rule; peg
  | |- takes (p_opt _) => apply takes_opt; peg
  | |- takes (p_many _) => apply takes_many; peg
  | |- takes (p_many1 _) => apply takes_many1; peg
  | |- takes (p_re _) => apply takes_re
  | |- takes (p_not _) => apply takes_not
  | |- takes (p_and _) => apply takes_and
  | |- takes _ => first [solve [auto with peg nocore] | apply takes_ends; peg]
  end.

Lemma in_ranges_false c l : Forall (fun r => (c < fst r \/ snd r < c)%N) l -> in_ranges l c = false.
Proof. unfold in_ranges. induction 1 as [|r l H _ IH]; [reflexivity|]. cbn [existsb]. rewrite IH. lia. Qed.
Lemma not_space c : (33 <= c <= 126)%N -> isspace_chr c = false.
Proof. intros H. apply in_ranges_false. unfold isspace_ranges. repeat constructor; cbn [fst snd]; lia. Qed.
Lemma in_str_in l c : in_str l c = true <-> In c l.
Proof. unfold in_str. rewrite existsb_exists. split; [intros (x & H & E); apply N.eqb_eq in E; now subst|intros H; exists c; split; [exact H|apply N.eqb_refl]]. Qed.
Lemma in_str_space l c : forallb (fun c => negb (isspace_chr c)) l = true -> in_str l c = true -> isspace_chr c = false.
Proof. intros F H. apply in_str_in in H. rewrite forallb_forall in F. specialize (F c H). now destruct (isspace_chr c). Qed.
Lemma az_space c : c_az c = true -> isspace_chr c = false.
Proof. intros H. apply not_space. unfold c_az in H. lia. Qed.
Lemma AZ_space c : c_AZ c = true -> isspace_chr c = false.
Proof. intros H. apply not_space. unfold c_AZ in H. lia. Qed.
Lemma digit_space c : c_09 c = true -> isspace_chr c = false.
Proof. intros H. apply not_space. unfold c_09 in H. lia. Qed.
Lemma small_space c : c_small c = true -> isspace_chr c = false.
Proof. unfold c_small. intros H. apply orb_true_iff in H as [H|H]; [now apply az_space|eapply in_str_space; [|exact H]; reflexivity]. Qed.
Lemma capital_space c : c_capital c = true -> isspace_chr c = false.
Proof. unfold c_capital. intros H. apply orb_true_iff in H as [H|H]; [now apply AZ_space|eapply in_str_space; [|exact H]; reflexivity]. Qed.
Lemma roman_space c : c_roman c = true -> isspace_chr c = false.
Proof. intros H. eapply in_str_space; [|exact H]; reflexivity. Qed.
Lemma word_space c : c_word c = true -> isspace_chr c = false.
Proof.
  unfold c_word. intros H. apply orb_true_iff in H as [H|H]; [apply orb_true_iff in H as [H|H]; [now apply small_space|now apply capital_space]|].
  apply N.eqb_eq in H. now subst.
Qed.
Global Hint Resolve az_space AZ_space digit_space small_space capital_space roman_space word_space : peg.

Lemma ends_digits : ends (p_re (RPlus c_09)). Proof. apply ends_plus. auto with peg. Qed.
Lemma ends_words : ends (p_re (RPlus c_word)). Proof. apply ends_plus. auto with peg. Qed.
Lemma ends_romans : ends (p_re (RPlus c_roman)). Proof. apply ends_plus. auto with peg. Qed.
Lemma ends_a_z : ends (p_re (RSet c_az)). Proof. apply ends_set. auto with peg. Qed.
Lemma ends_A_Z : ends (p_re (RSet c_AZ)). Proof. apply ends_set. auto with peg. Qed.
Global Hint Resolve ends_digits ends_words ends_romans ends_a_z ends_A_Z : peg.

Lemma suffixed_inv w s x r : p_suffixed w s = Some (x, r) -> exists v, x = w ++ v /\ v <> [] /\ forallb c_small v = true /\ s = w ++ v ++ r /\
  match r with c :: _ => c_small c = false | [] => True end.
Proof.
  unfold p_suffixed. intros H. apply re_inv in H as [-> H]. cbn [r_match] in H. destruct (after_prefix w (x ++ r)) as [t|] eqn:E; [|discriminate].
  apply after_prefix_spec in E. change (r_match (RPlus c_small) Some t = Some r) in H. rewrite match_plus in H by discriminate.
  exists (take_while c_small t). assert (F : match t with c :: _ => c_small c = true | [] => False end /\ drop_while c_small t = r).
  { destruct t as [|c u]; [discriminate|]. destruct (c_small c) eqn:F; [|discriminate]. split; [reflexivity|congruence]. }
  destruct F as [F <-]. pose proof (take_drop_while c_small t) as D. rewrite <- D in E at 2. rewrite app_assoc in E. apply app_inv_tail in E. subst x.
  split; [reflexivity|]. split; [destruct t as [|c u]; [destruct F|cbn; now rewrite F]|]. split; [apply take_while_all|].
  split; [now rewrite app_assoc|apply drop_while_stop].
Qed.
Lemma ends_suffixed w : ends (p_suffixed w).
Proof.
  intros s x r H. apply suffixed_inv in H as (v & _ & N & A & -> & _). destruct (exists_last N) as (u & c & ->).
  exists (w ++ u), c. rewrite <- !app_assoc. split; [reflexivity|]. apply small_space. rewrite forallb_app in A. cbn in A. lia.
Qed.
Global Hint Resolve ends_suffixed : peg.

Lemma ends_number : ends g_number. Proof. unfold g_number. peg. Qed.
Lemma ends_word : ends g_word. Proof. unfold g_word. peg. Qed.
Lemma ends_roman : ends g_roman. Proof. unfold g_roman. peg. Qed.
Global Hint Resolve ends_number ends_word ends_roman : peg.
Lemma ends_any_token : ends g_any_token.
Proof.
  unfold g_any_token. intros s x r H. unfold p_rule in H. apply or_inv in H as [H|[_ H]].
  - eapply suf_solid; [apply ws_suf|]. revert H. apply ends_or; peg.
  - rewrite re_set in H. destruct (ws s) as [|c t] eqn:W; [discriminate|]. destruct (c_not_newline c); [|discriminate]. injection H as <- <-.
    eapply suf_solid; [apply ws_suf|]. rewrite W. exists [], c. split; [reflexivity|]. eapply ws_head; eauto.
Qed.
Lemma takes_az : takes g_az. Proof. unfold g_az. peg. Qed.
Global Hint Resolve ends_any_token takes_az : peg.
Lemma ends_number_with_dot : ends g_number_with_dot. Proof. unfold g_number_with_dot. peg. Qed.
Lemma ends_month : ends g_month. Proof. unfold g_month. peg. Qed.
Lemma ends_ordinal : ends g_hungarian_ordinal. Proof. unfold g_hungarian_ordinal, g_ordinals. peg. Qed.
Lemma ends_ordinal_capital : ends g_hungarian_ordinal_capital. Proof. unfold g_hungarian_ordinal_capital, g_capital_ordinals. peg. Qed.
Lemma ends_dash : ends g_dash. Proof. unfold g_dash. peg. Qed.
Lemma ends_list_separator : ends g_list_separator. Proof. unfold g_list_separator. peg. Qed.
Global Hint Resolve ends_number_with_dot ends_month ends_ordinal ends_ordinal_capital ends_dash ends_list_separator : peg.
Lemma takes_separator : takes g_separator. Proof. unfold g_separator. peg. Qed.
Global Hint Resolve takes_separator : peg.

Lemma ends_quote_loop n : ends (quote_loop n).
Proof.
  induction n as [|n IH]; [intros s x r; discriminate|]. cbn [quote_loop]. apply (ends_rule (p_bind (p_tok (u8 "„")) _)).
  peg.
Qed.
Lemma ends_quote : ends g_quote_rule.
Proof. intros s x r H. eapply ends_quote_loop; exact H. Qed.
Global Hint Resolve ends_quote : peg.

Lemma r_match_cont r : forall k s u, r_match r k s = Some u -> exists t, suf s t /\ k t = Some u.
Proof.
  induction r as [f|f|f|f|w|a IHa b IHb|a IHa b IHb]; intros k s u H; cbn [r_match] in H.
  - destruct s as [|c t]; [discriminate|]. destruct (f c); [|discriminate]. exists t. split; [apply suf_cons, suf_refl|exact H].
  - revert u H. induction s as [|c t IH]; intros u H; [eauto using suf_refl|]. destruct (f c); [|eauto using suf_refl].
    destruct ((fix go (s : pystr) : option pystr := match s with [] => k s | c0 :: t0 => if f c0 then match go t0 with Some x => Some x | None => k s end else k s end) t) as [x|] eqn:E; [|eauto using suf_refl].
    injection H as <-. destruct (IH x eq_refl) as (v & V & K). exists v. split; [now apply suf_cons|exact K].
  - revert u H. induction s as [|c t IH]; intros u H; [discriminate|]. destruct (f c); [|discriminate].
    destruct ((fix go (s : pystr) : option pystr := match s with [] => None | c0 :: t0 => if f c0 then match go t0 with Some x => Some x | None => k t0 end else None end) t) as [x|] eqn:E; [|exists t; split; [apply suf_cons, suf_refl|exact H]].
    injection H as <-. destruct (IH x eq_refl) as (v & V & K). exists v. split; [now apply suf_cons|exact K].
  - destruct s as [|c t]; [eauto using suf_refl|]. destruct (f c); [|eauto using suf_refl]. destruct (k t) as [x|] eqn:E; [|eauto using suf_refl].
    injection H as <-. exists t. split; [apply suf_cons, suf_refl|exact E].
  - destruct (after_prefix w s) as [t|] eqn:E; [|discriminate]. apply after_prefix_spec in E. exists t. split; [now exists w|exact H].
  - apply IHa in H as (t & S & H). apply IHb in H as (t' & S' & H). exists t'. split; [eapply suf_trans; eauto|exact H].
  - destruct (r_match a k s) as [x|] eqn:E; [injection H as <-|]; eauto.
Qed.
Lemma ends_re_seq a b : ends (p_re b) -> ends (p_re (RSeq a b)).
Proof.
  intros B s x r H. apply re_inv in H as [_ H]. cbn [r_match] in H. apply r_match_cont in H as (t & S & H).
  eapply suf_solid; [exact S|]. apply (B t (firstn (length t - length r) t) r). unfold p_re. now rewrite H.
Qed.
Lemma ends_re_alt a b : ends (p_re a) -> ends (p_re b) -> ends (p_re (RAlt a b)).
Proof.
  intros P Q s x r H. apply re_inv in H as [_ H]. cbn [r_match] in H. destruct (r_match a Some s) as [u|] eqn:E.
  - injection H as ->. eapply P. unfold p_re. rewrite E. reflexivity.
  - eapply Q. unfold p_re. rewrite H. reflexivity.
Qed.
Lemma ends_re_lit w : solid_word w = true -> ends (p_re (RLit w)).
Proof.
  intros W s x r H. apply re_inv in H as [_ H]. cbn [r_match] in H. destruct (after_prefix w s) as [t|] eqn:E; [|discriminate].
  injection H as ->. apply after_prefix_spec in E. subst s. now apply solid_word_app.
Qed.
Lemma ends_abbreviation : ends g_abbreviation_rule.
Proof.
  unfold g_abbreviation_rule. apply ends_rule, ends_or; repeat apply ends_re_seq; [apply ends_re_alt; apply ends_re_lit; reflexivity|apply ends_re_lit; reflexivity].
Qed.
Global Hint Resolve ends_abbreviation : peg.

Lemma ends_article_id_group : ends g_article_id_group. Proof. unfold g_article_id_group. peg. Qed.
Global Hint Resolve ends_article_id_group : peg.
Lemma ends_article_id : ends g_article_id. Proof. unfold g_article_id. peg. Qed.
Lemma ends_article_suffix : ends g_article_suffix. Proof. unfold g_article_suffix. peg. Qed.
Lemma ends_paragraph_suffix : ends g_paragraph_suffix. Proof. unfold g_paragraph_suffix. peg. Qed.
Lemma ends_point_suffix : ends g_point_suffix. Proof. unfold g_point_suffix. peg. Qed.
Lemma ends_subpoint_suffix : ends g_subpoint_suffix. Proof. unfold g_subpoint_suffix. peg. Qed.
Lemma ends_paragraph_id : ends g_paragraph_id. Proof. unfold g_paragraph_id. peg. Qed.
Lemma ends_alphabetic_point_id : ends g_alphabetic_point_id. Proof. unfold g_alphabetic_point_id. peg. Qed.
Lemma ends_numeric_point_id : ends g_numeric_point_id. Proof. unfold g_numeric_point_id. peg. Qed.
Lemma ends_two_letters : ends (p_re (RSeq (RSet c_az) (ROpt c_az))).
Proof.
  intros s x r H. apply re_inv in H as [_ H]. cbn [r_match] in H. destruct s as [|c t]; [discriminate|]. destruct (c_az c) eqn:C; [|discriminate].
  destruct t as [|d t]; [injection H as <-; exists [], c; auto using az_space|].
  destruct (c_az d) eqn:D; injection H as <-; [exists [c], d|exists [], c]; auto using az_space.
Qed.
Global Hint Resolve ends_two_letters : peg.
Lemma ends_alphabetic_subpoint_id : ends g_alphabetic_subpoint_id. Proof. unfold g_alphabetic_subpoint_id. peg. Qed.
Lemma ends_numeric_subpoint_id : ends g_numeric_subpoint_id. Proof. unfold g_numeric_subpoint_id. peg. Qed.
Global Hint Resolve ends_article_id ends_article_suffix ends_paragraph_suffix ends_point_suffix ends_subpoint_suffix ends_paragraph_id
  ends_alphabetic_point_id ends_numeric_point_id ends_alphabetic_subpoint_id ends_numeric_subpoint_id : peg.
