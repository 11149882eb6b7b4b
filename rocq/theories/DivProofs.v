(* Divisions of acts, read forwards. *)
From Coq Require Import Lia.
From Coq Require Import ZifyBool ZifyNat ZifyN.
From Verif Require Import PyBase PyBaseFacts UnicodeAlnum NumModel NumSpec NumProofs IdModel LineModel DateModel RefModel RefSpec TreeModel StructModel StructProofs5 SemModel GramModel GramSpec PegModel PegSpec PegSpec2 PegSpec3 PegProofs PegProofs2 PegProofs5 PegProofs6 PegProofs7 PegProofs10 PegProofs13 PegProofs14 PegProofs22 PegProofs23 PegProofs24 PegProofs25 PegProofs29 PegProofs30 PegProofs33 PegProofs34 PegProofs37 DivSpec.
Local Open Scope Z_scope.

(** * What cannot be read where there are no articles, paragraphs and points *)

Section Never.
Variable T : pystr.
Variable total : Z.
Hypothesis Un : unmixed T.
Definition never {A} (p : parser A) : Prop := forall s x r, suf T s -> p s = Some (x, r) -> False.
Lemma never_rule {A} (p : parser A) : never p -> never (p_rule p).
Proof. intros N s x r S H. exact (N _ _ _ (suf_ws _ _ S) H). Qed.
Lemma never_or {A} (p q : parser A) : never p -> never q -> never (p <|> q).
Proof. intros P Q s x r S H. apply or_inv in H as [H|[_ H]]; eauto. Qed.
Lemma never_map {A B} (f : A -> B) p : never p -> never (p_map f p).
Proof. intros P s x r S H. apply map_inv in H as (y & H & _). eauto. Qed.
Lemma never_first {A B} (p : parser A) (q : A -> parser B) : never p -> never (p_bind p q).
Proof. intros P s x r S H. apply bind_inv in H as (y & t & H & _). eauto. Qed.
Lemma never_next {A B} (p : parser A) (q : A -> parser B) : takes p -> (forall x, never (q x)) -> never (p_bind p q).
Proof. intros K Q s x r S H. apply bind_inv in H as (y & t & E & H). eapply Q; [|exact H]. eapply suf_trans; [exact S|exact (K _ _ _ E)]. Qed.
Lemma never_span {A} (p : parser A) : never p -> never (p_span total p).
Proof. intros P s x r S H. unfold p_span in H. destruct (p (ws s)) as [[y q]|] eqn:E; [|discriminate]. exact (P _ _ _ (suf_ws _ _ S) E). Qed.
Lemma never_none {A} (p : parser A) : never p -> p T = None.
Proof. intros N. destruct (p T) as [[x r]|] eqn:E; [|reflexivity]. destruct (N T x r (suf_refl T) E). Qed.
Lemma unmixed_no a w b : In w [u8 "§"; u8 "bekezdés"; u8 "pont"] -> ~ has T (a ++ w ++ b).
Proof. intros I (u & v & E). unfold unmixed in Un. rewrite Forall_forall in Un. apply (Un w I). exists (u ++ a), (b ++ v). rewrite E, <- !app_assoc. reflexivity. Qed.
Lemma unit_never a w b a' b' : In w [u8 "§"; u8 "bekezdés"; u8 "pont"] -> never (p_rule (p_suffixed (a ++ w ++ b) <|> p_tok (a' ++ w ++ b'))).
Proof.
  intros I. apply never_rule, never_or; intros s x r S H; [apply (suffixed_has T) in H; [|exact S]|apply (tok_has T) in H; [|exact S]]; now apply unmixed_no in H.
Qed.
Lemma part_never t range single suffix : takes range -> takes single -> never suffix -> never (g_part_rule total t range single suffix).
Proof.
  intros R S N. apply never_rule. apply never_next; [|intros; now apply never_first]. apply takes_many1, takes_bind; [|intros; peg]. apply takes_or; apply takes_map, takes_span; assumption.
Qed.
Lemma article_suffix_never : never g_article_suffix. Proof. apply (unit_never [] (u8 "§") (u8 "-") [] []). cbn; tauto. Qed.
Lemma article_never : never (g_article_reference total). Proof. apply part_never; [peg|peg|apply article_suffix_never]. Qed.
Lemma paragraph_never : never (g_paragraph_reference total). Proof. apply part_never; [peg|peg|]. apply (unit_never [] (u8 "bekezdés") [] [] []). cbn; tauto. Qed.
Lemma any_point_never : never (g_any_point total).
Proof. apply never_or; (apply part_never; [peg|peg|]; apply (unit_never [] (u8 "pont") [] [] []); cbn; tauto). Qed.
Lemma any_subpoint_never : never (g_any_subpoint total).
Proof. apply never_or; (apply part_never; [peg|peg|]; apply (unit_never (u8 "al") (u8 "pont") [] (u8 "al") []); cbn; tauto). Qed.
Lemma reference_never : never (g_reference_rule total).
Proof.
  apply never_map, never_span. repeat apply never_or; unfold ref_with_article_with_paragraph, ref_with_article_no_paragraph, ref_with_paragraph, ref_with_point, ref_with_subpoint;
    [apply never_first, article_never|apply never_first, article_never|apply never_first, paragraph_never|apply never_first, any_point_never|apply never_map, any_subpoint_never].
Qed.
Lemma takes_az_article' : takes (g_az_article total).
Proof. unfold g_az_article. peg. Qed.
Lemma insertion_never : never (g_insertion_reference total).
Proof.
  assert (Z : never (g_az_article total)) by (apply never_next; [peg|intros; apply article_never]).
  assert (A : never (g_article_and_paragraph total (g_az_article total))) by (now apply never_first).
  assert (K : takes (g_article_and_paragraph total (g_az_article total))) by (pose proof takes_az_article'; unfold g_article_and_paragraph, one_part; peg).
  assert (Ko : takes (one_part (g_az_article total))) by (pose proof takes_az_article'; unfold one_part; peg).
  apply never_map, never_span. repeat apply never_or.
  - apply never_next; [peg|intros ?]. apply never_first, article_never.
  - apply never_next; [peg|intros ?]. apply never_next; [peg|intros ?]. apply never_first, paragraph_never.
  - apply never_next; [peg|intros ?]. apply never_next; [peg|intros ?]. apply never_first, any_point_never.
  - apply never_first, A.
Qed.
Lemma around_never : never (p_opt g_chapter_number ;~ g_after_article) /\ never (p_opt g_chapter_number ;~ g_before_article).
Proof.
  split; (apply never_next; [peg|intros ?]; apply never_rule; apply never_next; [peg|intros ?]; apply never_next; [peg|intros ?]; apply never_next; [peg|intros ?]; apply never_first, article_suffix_never).
Qed.
Lemma subtitle_title_never : ~ has T (u8 "alcíme") -> never g_subtitle_title.
Proof.
  intros N. apply never_rule. apply never_next; [peg|intros ?]. apply never_next; [peg|intros ?]. apply never_first. clear - N. intros s y r S H. apply (tok_has T) in H; [|exact S]. exact (N H).
Qed.
End Never.

(** * Numerals *)

Lemma plus_yes f n s : n <> [] -> forallb f n = true -> isspace_chr (hd 0%N n) = false -> match s with c :: _ => f c = false | [] => True end -> p_rule (p_re (RPlus f)) (n ++ s) = Some (n, s).
Proof.
  intros N F W E. unfold p_rule. destruct n as [|c n]; [contradiction|]. cbn [app]. rewrite ws_solid_head by exact W. apply (re_of_match _ (c :: n) s). rewrite match_plus by discriminate. cbn [forallb] in F. apply andb_prop in F as [F1 F2]. cbn [app]. rewrite F1. f_equal.
  cbn [drop_while]. rewrite F1. clear -F2 E. induction n as [|d n IH]; [destruct s as [|c s]; [reflexivity|]; cbn; now rewrite E|]. cbn [forallb] in F2. apply andb_prop in F2 as [F2 F3]. cbn [app drop_while]. rewrite F2. auto.
Qed.
Definition g_letter : parser (option (list pystr)) := p_opt (c <~ p_opt (p_tok (u8 "/")) ;; x <~ p_re (RSet c_AZ) ;; p_ret (match c with Some c => [c; x] | None => [x] end)).
Lemma letter_reads l p s : letter_after l p -> exists o, g_letter (p ++ 46%N :: s) = Some (o, 46%N :: s) /\ concat (listed o) = p.
Proof.
  intros [->|(c & C & H)]; [exists None; split; reflexivity|]. assert (E : forall r, p_re (RSet c_AZ) (c :: r) = Some ([c], r)) by (intros r; rewrite re_set; replace (c_AZ c) with true by (unfold c_AZ; lia); reflexivity).
  assert (W : lc (c :: 46%N :: s) <> 47%N) by (assert (W : isspace_chr c = false) by (apply capital_solid; left; exact C); rewrite lc_solid by exact W; lia).
  destruct H as [->|[-> _]].
  - exists (Some [[47%N]; [c]]). split; [|reflexivity]. unfold g_letter. apply opt_yes. rewrite (bind_yes _ _ _ (Some [47%N]) (c :: 46%N :: s)) by reflexivity. now rewrite (bind_yes _ _ _ _ _ (E _)).
  - exists (Some [[c]]). split; [|reflexivity]. unfold g_letter. apply opt_yes. cbn [app]. rewrite (bind_yes _ _ _ None (c :: 46%N :: s)) by (apply opt_no, tok_no; exact W). now rewrite (bind_yes _ _ _ _ _ (E _)).
Qed.
Lemma letter_stops l p s f : letter_after l p -> f 46%N = false -> f 47%N = false -> (forall c, (65 <= c <= 90)%N -> ~ In c l -> f c = false) -> match p ++ 46%N :: s with c :: _ => f c = false | [] => True end.
Proof. intros [->|(c & C & [->|[-> N]])] A B D; cbn [app]; auto. Qed.

Lemma roman_shape n : 1 <= n -> roman n <> [] /\ Forall (fun c => In c NumSpec.roman_letters) (roman n).
Proof. intros N. apply (proj1 (text_to_int_roman_accepts (roman n))). exists n. now apply text_to_int_roman_roman. Qed.
Lemma roman_checks (f : N -> bool) : forallb f NumSpec.roman_letters = true -> forall c, In c NumSpec.roman_letters -> f c = true.
Proof. intros H. now apply forallb_forall. Qed.
Lemma roman_solid c : In c NumSpec.roman_letters -> isspace_chr c = false.
Proof. intros I. apply negb_true_iff. revert c I. apply roman_checks. reflexivity. Qed.
Lemma roman_all s : Forall (fun c => In c NumSpec.roman_letters) s -> forallb c_roman s = true.
Proof. intros F. apply forallb_forall. rewrite Forall_forall in F. intros c C. apply F in C. revert c C. apply roman_checks. reflexivity. Qed.
Lemma roman_only c : c_roman c = true -> In c NumSpec.roman_letters.
Proof. unfold c_roman, in_str. intros H. apply existsb_exists in H as (d & I & E). apply N.eqb_eq in E as <-. cbn in I |- *. tauto. Qed.
Lemma numeral_reads w i s : numeral_written w i -> exists l, g_id_with_letter g_roman (w ++ 46%N :: s) = Some (l, 46%N :: s) /\ concat l = w /\ roman_to_arabic_with_postfix w = Ok i.
Proof.
  intros [n p N P]. destruct (roman_shape n N) as [R F]. destruct (letter_reads _ p s P) as (o & L & C). exists (roman n :: listed o).
  assert (B : forall c, ~ In c NumSpec.roman_letters -> c_roman c = false) by (intros c H; destruct (c_roman c) eqn:E; [apply roman_only in E; contradiction|reflexivity]).
  split; [|split].
  - unfold g_id_with_letter, g_roman. rewrite <- app_assoc. rewrite (bind_yes _ _ _ (roman n) (p ++ 46%N :: s)); [fold g_letter; now rewrite (bind_yes _ _ _ _ _ L)|].
    apply plus_yes; [exact R|now apply roman_all| |].
    + destruct (roman n) as [|c t]; [contradiction|]. cbn [hd]. apply roman_solid. now inversion F.
    + apply (letter_stops NumSpec.roman_letters); auto.
  - cbn [concat]. now rewrite C.
  - apply roman_to_arabic_spec; [exact N|]. destruct P as [->|(c & C' & [->|[-> I]])]; cbn; [exact Logic.I| |exact I]. intros H. repeat (destruct H as [H|H]; [discriminate H|]). destruct H.
Qed.
Lemma digits_reads n p s : digits n -> letter_after [] p -> exists l, g_id_with_letter g_number ((n ++ p) ++ 46%N :: s) = Some (l, 46%N :: s) /\ concat l = n ++ p.
Proof.
  intros D P. destruct (letter_reads _ p s P) as (o & L & C). exists (n :: listed o). split; [|cbn [concat]; now rewrite C].
  unfold g_id_with_letter. rewrite <- app_assoc. rewrite (bind_yes _ _ _ n (p ++ 46%N :: s)); [fold g_letter; now rewrite (bind_yes _ _ _ _ _ L)|].
  apply number_yes; [exact D|]. apply (letter_stops []); auto. intros c C' _. unfold c_09. lia.
Qed.

(** * Ordinals *)

Lemma ordinal_cases (P : pystr -> pystr -> Prop) : Forall (fun n => forall w, nth_error ordinals n = Some w -> P w (str_of_int (Z.of_nat n + 1))) (seq 0 19) -> forall w i, ordinal_written w i -> P w i.
Proof.
  intros F w i (n & E & ->). rewrite Forall_forall in F. apply F; [|exact E]. apply in_seq. assert (L : (n < length ordinals)%nat) by (apply nth_error_Some; congruence). cbn [length ordinals] in L. lia.
Qed.
Ltac each_ordinal := match goal with |- forall w i, ordinal_written w i -> @?P w i => apply (ordinal_cases P) end; cbv beta; cbn [seq]; repeat apply Forall_cons; try apply Forall_nil; intros w E; cbn in E; injection E as <-.
Lemma ordinal_reads w i : ordinal_written w i -> forall s, g_hungarian_ordinal_capital (w ++ 32%N :: s) = Some (w, 32%N :: s).
Proof. revert w i. each_ordinal; reflexivity. Qed.
Lemma ordinal_number w i : ordinal_written w i -> exists n, text_to_int_hun w = Ok n /\ i = str_of_int n.
Proof. revert w i. each_ordinal; eexists; (split; [vm_compute; reflexivity|reflexivity]). Qed.
Lemma ordinal_solid w i : ordinal_written w i -> exists c t, w = c :: t /\ isspace_chr c = false /\ c <> 40%N /\ (c < 97 \/ 122 < c)%N /\ c_09 c = false.
Proof. revert w i. each_ordinal; (do 2 eexists; split; [reflexivity|]; split; [reflexivity|]; split; [discriminate|]; split; [lia|reflexivity]). Qed.
Lemma ordinal_chapter w i : ordinal_written w i -> forall s, g_chapter_number (w ++ 32%N :: s) = None.
Proof. revert w i. each_ordinal; reflexivity. Qed.
Lemma roman_ordinal c d t : In c NumSpec.roman_letters -> d <> 225%N -> g_hungarian_ordinal_capital (c :: d :: t) = None.
Proof.
  intros C D. unfold g_hungarian_ordinal_capital, p_rule. assert (W : isspace_chr c = false) by now apply roman_solid. rewrite ws_solid_head by exact W.
  apply toks_none. rewrite ws_solid_head by exact W. intros w r I E. repeat (destruct I as [<-|I]; [injection E as E1 E2; subst; first [now apply D|cbn in C; repeat (destruct C as [C|C]; [discriminate C|]); destruct C]|]). destruct I.
Qed.
