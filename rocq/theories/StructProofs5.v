(* Printed headings are read back. *)
From Coq Require Import Lia.
From Coq Require Import ZifyBool ZifyNat ZifyN.
From Verif Require Import PyBase PyBaseFacts NumModel IdModel LineModel DateModel RefModel TreeModel FixupModel StructModel.
From Verif Require Import NumSpec IdSpec LineSpec RefSpec TreeSpec FixupSpec StructSpec NumProofs IdProofs LineProofs TreeProofs FixupProofs
  StructPatterns StructProofs StructProofs2 StructProofs3 StructProofs4.
Local Open Scope Z_scope.

Lemma join_snoc ls s : join_line_strs (ls ++ [s]) = join_step (join_line_strs ls) s.
Proof. unfold join_line_strs. now rewrite fold_left_app. Qed.
Lemma joined_unique ls t : joined ls t -> t = join_line_strs ls.
Proof.
  induction 1 as [|ls t s H IH E|ls t s H IH|ls t c s H IH N]; [reflexivity| | |]; rewrite join_snoc, <- IH; unfold join_step.
  - now rewrite E.
  - now rewrite rev_unit.
  - rewrite rev_unit. destruct (N.eqb_spec c 45); [contradiction|]. now rewrite <- !app_assoc.
Qed.
Lemma blanks_unique ls r : without_blanks ls r -> r = List.filter not_empty_line ls.
Proof.
  induction 1 as [|l ls r B H IH|l ls r B H IH]; [reflexivity| |]; cbn; unfold not_empty_line at 1; destruct (is_empty_line l) eqn:E; cbn.
  - apply not_empty_spec in E. contradiction.
  - now rewrite IH.
  - exact IH.
  - exfalso. apply B. intros X. apply not_empty_spec in X. congruence.
Qed.
Lemma text_in_joined ls t : text_in ls t -> t = joined_lines ls.
Proof. intros (r & B & J). apply blanks_unique in B as ->. now apply joined_unique in J. Qed.

Lemma roman_upper n : 0 <= n -> str_upper (roman n) = roman n.
Proof.
  intros N. assert (H : Forall (fun c => In c roman_letters) (roman n)).
  { destruct (Z.eq_dec n 0) as [->|NZ]; [constructor|]. pose proof (text_to_int_roman_roman n ltac:(lia)) as R.
    now apply (text_to_int_roman_accepts (roman n)); exists n. }
  unfold str_upper. induction H as [|c s C H IH]; [reflexivity|]. cbn [flat_map]. rewrite IH.
  assert (X : forallb (fun c => str_eqb (upper_chr c) [c]) roman_letters = true) by (vm_compute; reflexivity).
  rewrite forallb_forall in X. specialize (X _ C). apply str_eqb_eq in X. now rewrite X.
Qed.
Lemma formatted_roman n p : 1 <= n -> roman_postfix p ->
  exists r, arabic_to_roman_with_postfix (str_of_int n ++ p) = Ok r /\ str_upper r = roman n ++ p /\
    roman_to_arabic_with_postfix (roman n ++ p) = Ok (str_of_int n ++ p).
Proof.
  intros N (P1 & P2 & P3). destruct (postfix_roundtrip n p N P1 P2) as [A B]. exists (roman n ++ p). repeat split; auto.
  unfold str_upper in *. rewrite flat_map_app, P3. f_equal. apply roman_upper. lia.
Qed.
Lemma in_any_case_upper : in_any_case (u8 ". FEJEZET") (u8 ". fejezet").
Proof. repeat constructor; unfold small_letter; lia. Qed.
Lemma ordinal_upper n : 1 <= n <= 100 -> exists t, int_to_text_hun n = Ok t /\ ordinal_of n (str_upper t).
Proof.
  intros N. rewrite int_to_text_hun_in by exact N. eexists. split; [reflexivity|].
  apply ordinal_spec. now apply text_to_int_hun_upper.
Qed.

(* the text of the first line is a heading *)
Lemma formatted_heading e : in_range e -> exists s, formatted_identifier e = Ok s /\
  (se_kind e <> KSubtitle -> heading (se_kind e) s (se_identifier e)) /\
  (se_kind e <> KSubtitle -> se_special e = false -> ~ In s special_headings) /\
  (se_special e = true -> exists n, nth_error special_headings n = Some s /\ e = mk_struct KPart (str_of_int (Z.of_nat n + 1)) [] true) /\
  (se_kind e = KSubtitle -> se_identifier e <> [] -> subtitle_number (se_identifier e) /\ s = se_identifier e ++ u8 ".") /\
  (se_kind e = KSubtitle -> se_special e = false).
Proof.
  intros [n t N|n t N|n N|n p t N P|n p t N P|i t I|t]; unfold formatted_identifier; cbn [se_kind se_identifier se_special].
  - rewrite py_int_str_of_int by lia. cbn [bind]. destruct (ordinal_upper n N) as (o & -> & O). cbn [bind].
    eexists. split; [reflexivity|]. assert (H : heading KBook (str_upper o ++ u8 " KÖNYV") (str_of_int n)) by now constructor.
    repeat split; try congruence. intros _ _ S. now pose proof (heading_special_part _ _ _ H S).
  - rewrite py_int_str_of_int by lia. cbn [bind]. destruct (ordinal_upper n N) as (o & -> & O). cbn [bind].
    eexists. split; [reflexivity|]. repeat split; try congruence.
    + intros _. now constructor.
    + intros _ _ S. apply In_nth_error in S as [m S]. change special_headings with special_parts in S.
      now apply (special_not_ordinal m _ n) in S.
  - rewrite py_int_str_of_int by lia. cbn [bind].
    assert (n = 1 \/ n = 2 \/ n = 3) as [->|[->| ->]] by lia; eexists; (split; [reflexivity|]); repeat split; try congruence.
    + intros _. exact (heading_special _ 0 eq_refl).
    + intros _. now exists 0%nat.
    + intros _. exact (heading_special _ 1 eq_refl).
    + intros _. now exists 1%nat.
    + intros _. exact (heading_special _ 2 eq_refl).
    + intros _. now exists 2%nat.
  - destruct (formatted_roman n p N P) as (r & -> & UP & R). cbn [bind]. rewrite UP. eexists. split; [reflexivity|].
    assert (H : heading KTitle ((roman n ++ p) ++ u8 ". CÍM") (str_of_int n ++ p)) by now constructor.
    repeat split; try congruence. intros _ _ S. now pose proof (heading_special_part _ _ _ H S).
  - destruct (formatted_roman n p N P) as (r & -> & UP & R). cbn [bind]. rewrite UP. eexists. split; [reflexivity|].
    assert (H : heading KChapter ((roman n ++ p) ++ u8 ". FEJEZET") (str_of_int n ++ p)) by (constructor; [exact R|apply in_any_case_upper]).
    repeat split; try congruence. intros _ _ S. now pose proof (heading_special_part _ _ _ H S).
  - exists (i ++ u8 "."). split; [|repeat split; try congruence; auto]. destruct i; [|reflexivity].
    apply subtitle_number_spec in I as (d & _ & N & [E|(c & _ & E)]); [congruence|]. now destruct d.
  - exists []. repeat split; congruence.
Qed.

Lemma heading_roundtrip e : in_range e -> exists s, formatted_identifier e = Ok s /\
  forall l ls, ~ In 10%N (l_content l) -> heading_lines e s (l :: ls) ->
    struct_parse (se_kind e) (l :: ls) = Ok e /\
    (se_identifier e <> [] -> struct_extract (se_kind e) l = Ok (Some (se_identifier e))).
Proof.
  intros R. destruct (formatted_heading e R) as (s & F & H1 & H2 & H3 & H4 & H5). exists s. split; [exact F|].
  intros l ls NL H. destruct e as [k i t sp]. cbn [se_kind se_identifier se_special se_title] in *.
  inversion H as [l' ls' K S C T|l' ls' S C|l' ls' u K I C T|l' ls' K I NH T]; subst; cbn [se_kind se_identifier se_special se_title] in *; subst.
  - apply text_in_joined in T as ->. specialize (H1 K). specialize (H2 K eq_refl).
    pose proof (proj2 (struct_extract_heading _ _ _ NL) H1) as X. split; [|auto]. cbn [struct_parse].
    destruct k; try (rewrite X; reflexivity); [|contradiction].
    destruct (index_str (l_content l) special_parts) as [n|] eqn:E; [|rewrite X; reflexivity].
    exfalso. apply H2. change special_headings with special_parts. apply index_str_spec in E. eapply nth_error_In, E.
  - destruct (H3 eq_refl) as (n & N & E). injection E as -> -> ->. specialize (H1 ltac:(discriminate)).
    pose proof (proj2 (struct_extract_heading _ _ _ NL) H1) as X. split; [|auto]. cbn [struct_parse].
    unfold struct_extract in X. destruct (index_str (l_content l) special_parts) as [m|] eqn:E.
    + injection X as X. now rewrite X.
    + apply index_str_none in E. exfalso. apply E. change special_parts with special_headings. eapply nth_error_In, N.
  - destruct (H4 eq_refl I) as [SN ->]. rewrite (H5 eq_refl).
    assert (HD : heading KSubtitle (l_content l) i).
    { rewrite C, <- app_assoc. change (u8 "." ++ u8 " " ++ u) with (u8 ". " ++ u). now constructor. }
    pose proof (proj2 (struct_extract_heading _ _ _ NL) HD) as X. split; [|auto]. cbn [struct_parse]. cbv zeta. rewrite X. cbn [bind].
    apply text_in_joined in T. rewrite <- T, <- app_assoc. unfold after_dot_space.
    change (u8 ". ") with (46%N :: [32%N]). change (u8 "." ++ u8 " " ++ t) with ((46%N :: [32%N]) ++ t).
    rewrite find_sub_chr by now apply subtitle_no_dot. cbn [bind].
    rewrite skipn_app, skipn_all2 by lia. replace (List.length i + 2 - List.length i)%nat with 2%nat by lia. reflexivity.
  - rewrite (H5 eq_refl). apply (struct_extract_no_heading _ _ NL) in NH. split; [|congruence].
    cbn [struct_parse]. cbv zeta. rewrite NH. cbn [bind]. now apply text_in_joined in T as <-.
Qed.

(** * Statements about articles and acts *)

Lemma sae_parse_identifier p subs_of l0 ls pi s : sae_parse p subs_of (l0 :: ls) pi = Ok s -> s_identifier s = extract_identifier p l0.
Proof.
  intros H. cbn [sae_parse] in H. apply bind_ok in H as (prefix & _ & H). apply bind_ok in H as (u & _ & H).
  apply bind_ok in H as (l1 & _ & H).
  destruct (subs <- subs_of (extract_identifier p l0) ;; parse_children_and_wrapup subs (l1 :: ls) pi) as [[[intro cs] w]|e].
  - now apply new_sae_ok in H as [-> _].
  - destruct e; try discriminate. now apply new_sae_ok in H as [-> _].
Qed.

Lemma article_numbering ls pi a : Forall single_end ls -> parse_article ls pi = Ok a ->
  article_in ls a /\
  Forall (fun p => well_numbered p /\ forall x, inside_sae (ChSae x) p -> well_numbered x) (a_paragraphs a) /\
  ((exists p, a_paragraphs a = [p]) \/ numbered_from KParagraph (u8 "1") (a_paragraphs a)) /\
  NoDup (map s_identifier (a_paragraphs a)).
Proof.
  intros SE H. destruct ls as [|l0 ls]; [discriminate|]. apply parse_article_sound in H as [H _]; [|exact SE]. split; [exact H|].
  inversion H as [? l1 ? i sp title rest blanks body ps N SP C T R FB LB P]; subst. cbn [a_paragraphs].
  destruct P as [b p E I|b ps E].
  - split; [constructor; [|constructor]; now apply elements_numbering in E|]. split; [left; eauto|]. cbn. constructor; [intros []|constructor].
  - destruct elements_numbering as (_ & _ & EN). destruct (EN _ _ _ _ _ E) as [NF WF]. split; [exact WF|].
    split; [now right|]. eapply numbered_nodup, NF.
Qed.

Lemma act_written i d s lines a : Forall fine lines -> parse_act i d s lines = Ok a ->
  exists preamble body, lines = preamble ++ body /\ text_in preamble (act_preamble a) /\
    body_in true (fun _ => u8 "0") body (act_children a) /\ act_children a <> [] /\
    act_identifier a = i /\ act_publication_date a = d /\ act_subject a = s.
Proof. intros F H. destruct (parse_act_sound _ _ _ _ _ F H) as (p & b & E & T & _ & R). eauto. Qed.

Lemma body_in_groups strict last ls cs : body_in strict last ls cs -> forall c, In c cs ->
  exists before l group after, ls = before ++ (l :: group) ++ after /\ open_after before = 0 /\ open_after (l :: group) = 0 /\
    match c with AArticle a => article_in (l :: group) a | AStruct e => struct_in (l :: group) e end.
Proof.
  induction 1 as [last|last group ls a cs A O H IH|last group ls e cs A O S H IH]; intros c C; [destruct C| |].
  - destruct C as [<-|C].
    + destruct group as [|l group]; [inversion A|]. exists [], l, group, ls. auto.
    + destruct (IH c C) as (before & l & g & after & -> & OB & OG & X). exists (group ++ before), l, g, after.
      rewrite <- app_assoc, open_after_app. repeat split; auto. lia.
  - destruct C as [<-|C].
    + destruct group as [|l group]; [inversion A|]. exists [], l, group, ls. auto.
    + destruct (IH c C) as (before & l & g & after & -> & OB & OG & X). exists (group ++ before), l, g, after.
      rewrite <- app_assoc, open_after_app. repeat split; auto. lia.
Qed.
Lemma act_outside_quotes i d s lines a : Forall fine lines -> open_after lines = 0 -> parse_act i d s lines = Ok a ->
  forall c, In c (act_children a) -> exists before l group after, lines = before ++ (l :: group) ++ after /\ open_after before = 0 /\
    open_after (l :: group) = 0 /\ match c with AArticle a => article_in (l :: group) a | AStruct e => struct_in (l :: group) e end.
Proof.
  intros F O H c C. destruct (parse_act_sound _ _ _ _ _ F H) as (p & b & E & _ & _ & B & _).
  pose proof (body_balanced _ _ _ _ B) as OB. rewrite E, open_after_app in O.
  destruct (body_in_groups _ _ _ _ B c C) as (before & l & g & after & -> & O1 & O2 & X). exists (p ++ before), l, g, after.
  rewrite E, <- app_assoc, open_after_app. repeat split; auto. lia.
Qed.

Lemma article_title_complete lines title rest : titled lines title rest -> article_title lines = Ok (title, rest).
Proof.
  intros [l ls c t C N|l ls t C|l l' ls t t' j C UL C' J]; unfold article_title; cbn [line_at nth_error bind]; rewrite C; cbn [first_chr bind].
  - now destruct (N.eqb_spec c 91).
  - change ((91 =? 91)%N) with true. cbv iota. rewrite (proj2 (last_chr_cases (91%N :: t ++ [93%N]) 93%N)) by (now exists (91%N :: t)).
    cbn [bind]. change ((93 =? 93)%N) with true. cbv iota. now rewrite py_slice_inner.
  - change ((91 =? 91)%N) with true. cbv iota.
    assert (E : exists e, last_chr (91%N :: t) = Ok e /\ e <> 93%N).
    { destruct (rev t) as [|e r] eqn:R.
      - assert (t = []) by (rewrite <- (rev_involutive t), R; reflexivity). subst. exists 91%N. split; [reflexivity|discriminate].
      - assert (X : t = rev r ++ [e]) by (rewrite <- (rev_involutive t), R; reflexivity). subst t. exists e.
        split; [apply last_chr_cases; now exists (91%N :: rev r)|]. intros ->. apply (UL (91%N :: rev r)). exact C. }
    destruct E as (e & -> & NE). cbn [bind]. destruct (N.eqb_spec e 93); [contradiction|].
    rewrite C', last_chr_snoc. cbn [bind]. change ((93 =? 93)%N) with true. cbv iota. rewrite drop_last_snoc.
    now apply joined_unique in J as ->.
Qed.

Lemma find_article_headings x q ls ids : Forall (fun l => ~ In 10%N (l_content l) /\ (article_extract l <> None -> l_indent l = x)) ls ->
  (fix find (q : Z) (ls : list line) : list pystr :=
     match ls with
     | [] => []
     | l :: t => (if q =? 0 then match article_extract l with Some i => [i] | None => [] end else []) ++ find (q + quote_level_diff (l_content l)) t
     end) q ls = ids -> article_headings x q ls ids.
Proof.
  intros F <-. revert q. induction F as [|l ls [NL X] F IH]; intros q; [constructor|].
  assert (D : q + quote_level_diff (l_content l) = q + open_after [l]) by (rewrite open_after_cons; change (open_after []) with 0; lia).
  rewrite D. destruct (Z.eqb_spec q 0) as [->|N].
  - destruct (article_extract l) as [i|] eqn:E.
    + cbn [app]. apply headings_one; [reflexivity|now apply article_extract_spec|apply X; congruence|apply IH].
    + cbn [app]. apply headings_none; [|apply IH]. right. intros i A. apply article_extract_spec in A; [congruence|exact NL].
  - cbn [app]. apply headings_none; [now left|apply IH].
Qed.
