(* Layouts of acts are parsed. *)
From Coq Require Import Lia.
From Coq Require Import ZifyBool ZifyNat ZifyN.
From Verif Require Import PyBase PyBaseFacts NumModel IdModel LineModel DateModel RefModel TreeModel FixupModel StructModel.
From Verif Require Import NumSpec IdSpec LineSpec RefSpec TreeSpec FixupSpec StructSpec LayoutSpec BodySpec NumProofs IdProofs LineProofs TreeProofs FixupProofs
  StructPatterns StructProofs StructProofs2 StructProofs3 StructProofs4 StructProofs5 LayoutProofs LayoutProofs2 LayoutProofs3.
Local Open Scope Z_scope.

Lemma near_similar x l : near x l <-> match x with Some i => negb (similar_indent (l_indent l) i) | None => false end = false.
Proof. destruct x as [x|]; cbn; [|split; auto]. unfold similar_indent, f_abs. rewrite negb_false_iff. reflexivity. Qed.
Lemma follows_next a b : follows_number a b -> is_next_numeric_identifier a b = Ok true.
Proof. intros (s & n & l & s' & m & j & L & J & -> & -> & S). destruct (numeric_next_spec s s' n l m j L J) as (r & -> & E). f_equal. now apply E. Qed.
Lemma skips_next a b : skips_number a b -> is_next_numeric_identifier a b = Ok false.
Proof. intros (s & n & l & s' & m & j & L & J & -> & -> & S). destruct (numeric_next_spec s s' n l m j L J) as (r & -> & E). destruct r; [|reflexivity]. exfalso. now apply S, E. Qed.
Lemma counted_header strict last k i l : one_line l -> heading k (l_content l) i -> counted strict last k i -> numbered_header k strict (last k) l = Ok true.
Proof.
  intros O H C. unfold numbered_header. apply struct_extract_heading in H; [|exact O]. rewrite H. cbn [bind]. destruct strict; [|reflexivity]. cbn [negb].
  destruct (C eq_refl) as [->|F]; [now rewrite str_eqb_refl|]. destruct (str_eqb i (u8 "1")); [reflexivity|]. now apply follows_next.
Qed.
Lemma passed_header strict last k l : one_line l -> (forall i, heading k (l_content l) i -> passed strict last k i) -> numbered_header k strict (last k) l = Ok false.
Proof.
  intros O H. unfold numbered_header. destruct (extract_total k l) as [[i|] E]; rewrite E; cbn [bind]; [|reflexivity].
  apply struct_extract_heading in E; [|exact O]. destruct (H _ E) as (-> & N & S). cbn [negb]. destruct (str_eqb i (u8 "1")) eqn:Q; [apply str_eqb_eq in Q; contradiction|]. now apply skips_next.
Qed.
Lemma capital_spec c : is_uppercase_hun [c] = true <-> In c capitals.
Proof. cbn [is_uppercase_hun forallb]. rewrite andb_true_r. rewrite mem_chr_In. split; intros H; vm_compute in *; intuition. Qed.
Lemma bold_content l : l_bold l = true -> exists c t, l_content l = c :: t.
Proof.
  unfold l_bold, l_content. intros H. destruct (flat_map p_content (l_parts l)) as [|c t] eqn:E; [exfalso|eauto]. revert H.
  assert (X : forall ps, flat_map p_content ps = [] -> forall a, fold_left (fun a p => if p_bold p then (a + length (p_content p))%nat else a) ps a = a).
  { induction ps as [|p ps IH]; intros F a; [reflexivity|]. cbn in *. apply app_eq_nil in F as [F1 F2]. rewrite F1. destruct (p_bold p); rewrite IH by exact F2; cbn; lia. }
  rewrite X by exact E. cbn. lia.
Qed.

(** * Headings of different types *)

Definition starts_digit (s : pystr) : Prop := exists c t, s = c :: t /\ (48 <= c <= 57)%N.
Lemma article_digit i u : article_number i -> starts_digit (i ++ u).
Proof.
  assert (D : forall d u, ascii_digits d -> d <> [] -> starts_digit (d ++ u)).
  { intros [|c d] v D N; [contradiction|]. inversion D; subst. now exists c, (d ++ v). }
  intros [d A N|d c A N _|b j A N _ _]; [now apply D|rewrite <- app_assoc; now apply D|rewrite <- app_assoc; now apply D].
Qed.
Lemma lower_digit c : (48 <= c <= 57)%N -> lower_chr c = [c].
Proof.
  intros H. assert (X : forallb (fun n => str_eqb (lower_chr (N.of_nat n)) [N.of_nat n]) (seq 48 10) = true) by (vm_compute; reflexivity).
  rewrite forallb_forall in X. specialize (X (N.to_nat c)). rewrite N2Nat.id in X. apply str_eqb_eq, X, in_seq. lia.
Qed.
Lemma ordinal_no_digit n t u : ordinal_of n t -> ~ starts_digit (t ++ u).
Proof.
  intros [R E] (c & v & C & D).
  assert (X : forallb (fun w => match w with [] => false | c :: _ => negb ((48 <=? c) && (c <=? 57))%N end) hungarian_ordinals = true) by (vm_compute; reflexivity).
  assert (L : length hungarian_ordinals = 100%nat) by (vm_compute; reflexivity).
  rewrite forallb_forall in X. specialize (X (nth (Z.to_nat (n - 1)) hungarian_ordinals [])).
  rewrite <- E in X. assert (I : In (str_lower t) hungarian_ordinals) by (rewrite E; apply nth_In; lia). specialize (X I).
  destruct t as [|y t]; [discriminate X|]. injection C as -> _. unfold str_lower in X. cbn [flat_map] in X. rewrite (lower_digit _ D) in X. cbn [app] in X. lia.
Qed.
Lemma roman_no_digit t i u : roman_to_arabic_with_postfix t = Ok i -> ~ starts_digit (t ++ u).
Proof.
  unfold roman_to_arabic_with_postfix, text_to_int_roman_with_postfix. intros H (c & v & C & D). destruct t as [|y t]; [discriminate H|]. injection C as -> _.
  cbn [length roman_prefix_loop] in H.
  assert (X : List.find (fun '(text, _) => str_eqb text (firstn (length text) (c :: t))) roman_numerals = None); [|rewrite X in H; discriminate H].
  assert (Q : forall l : list (pystr * Z), forallb (fun p => match fst p with [] => false | d :: _ => negb ((48 <=? d) && (d <=? 57))%N end) l = true ->
    List.find (fun '(text, _) => str_eqb text (firstn (length text) (c :: t))) l = None).
  { induction l as [|[w z] l IH]; [reflexivity|]. cbn [forallb fst]. intros Q. apply andb_prop in Q as [Q1 Q2]. cbn [List.find]. destruct w as [|d w]; [discriminate Q1|].
    cbn [length firstn]. destruct (str_eqb (d :: w) (c :: firstn (length w) t)) eqn:E; [apply str_eqb_eq in E; injection E as -> _; lia|]. now apply IH. }
  apply Q. vm_compute. reflexivity.
Qed.
Lemma heading_no_digit k s i : k <> KSubtitle -> heading k s i -> ~ starts_digit s.
Proof.
  intros K H. apply heading_cases in H. destruct k; [| | | |contradiction].
  - destruct H as (t & n & -> & O & _). now apply (ordinal_no_digit n).
  - destruct H as [(t & n & -> & O & _)|(n & E & _)]; [now apply (ordinal_no_digit n)|]. apply nth_error_In in E. intros (c & t & C & D). rewrite C in E. cbn in E.
    destruct E as [E|[E|[E|[]]]]; injection E as E _; subst c; lia.
  - destruct H as (t & -> & R). now apply (roman_no_digit t i).
  - destruct H as (t & x & -> & _ & R). now apply (roman_no_digit t i).
Qed.
Lemma heading_no_article k s i j : k <> KSubtitle -> heading k s i -> ~ article_heading s j.
Proof. intros K H (N & sp & t & _ & E). apply (heading_no_digit _ _ _ K H). rewrite E. now apply article_digit. Qed.
Lemma last_snoc {A} (s : list A) c d : last (s ++ [c]) d = c.
Proof. now rewrite last_last. Qed.
Lemma heading_last k s i : k <> KSubtitle -> heading k s i ->
  match k with KBook => last s 0%N = 86%N | KPart => last s 0%N = 90%N | KTitle => last s 0%N = 77%N | KChapter => last s 0%N = 116%N \/ last s 0%N = 84%N | KSubtitle => False end.
Proof.
  intros K H. apply heading_cases in H. destruct k; [| | | |contradiction].
  - destruct H as (t & n & -> & _). change (u8 " KÖNYV") with (u8 " KÖNY" ++ [86%N]). now rewrite app_assoc, last_snoc.
  - destruct H as [(t & n & -> & _)|(n & E & _)].
    + change (u8 " RÉSZ") with (u8 " RÉS" ++ [90%N]). now rewrite app_assoc, last_snoc.
    + apply nth_error_In in E. cbn in E. destruct E as [<-|[<-|[<-|[]]]]; reflexivity.
  - destruct H as (t & -> & _). change (u8 ". CÍM") with (u8 ". CÍ" ++ [77%N]). now rewrite app_assoc, last_snoc.
  - destruct H as (t & x & -> & C & _). unfold in_any_case in C.
    change (u8 ". fejezet") with (u8 ". fejeze" ++ [116%N]) in C. apply Forall2_app_inv_r in C as (a & b & _ & C & ->). inversion C as [|c ? ? ? X Y]; subst. inversion Y; subst.
    rewrite app_assoc, last_snoc. unfold small_letter in X. lia.
Qed.
Lemma heading_kinds k k' s i i' : k <> KSubtitle -> k' <> KSubtitle -> heading k s i -> heading k' s i' -> k = k'.
Proof. intros K K' H H'. apply heading_last in H; [|exact K]. apply heading_last in H'; [|exact K']. destruct k, k'; try reflexivity; try contradiction; exfalso; repeat match goal with H : _ \/ _ |- _ => destruct H end; congruence. Qed.

(** * Which line starts what *)

Definition state_of (strict : bool) (last : struct_kind -> pystr) (x : option pyfloat) : body_state := mk_state strict last x.
Lemma article_header strict last x l previous : one_line l -> is_header (mk_state strict last x) BArticle l previous =
  Ok (match x with Some i => similar_indent (l_indent l) i | None => true end && match article_extract l with None => false | Some _ => true end).
Proof. intros O. cbn [is_header bs_indent]. destruct x as [x|]; [|reflexivity]. destruct (similar_indent (l_indent l) x); reflexivity. Qed.
Lemma no_article_header strict last x l previous : one_line l -> (near x l -> forall i, ~ article_heading (l_content l) i) ->
  is_header (mk_state strict last x) BArticle l previous = Ok false.
Proof.
  intros O H. rewrite article_header by exact O. f_equal.
  destruct (match x with Some i => similar_indent (l_indent l) i | None => true end) eqn:S; [|reflexivity].
  destruct (article_extract l) as [i|] eqn:E; [|reflexivity]. exfalso. apply (H ltac:(apply near_similar; destruct x; [now rewrite S|reflexivity]) i). now apply article_extract_spec.
Qed.
Lemma article_starts strict last x l previous i : one_line l -> near x l -> article_heading (l_content l) i ->
  get_parser_for_header_line (mk_state strict last x) l previous body_parsers = Ok (Some BArticle).
Proof.
  intros O N H. cbn [get_parser_for_header_line body_parsers]. rewrite article_header by exact O. apply article_extract_spec in H; [|exact O]. rewrite H, andb_true_r.
  apply near_similar in N. destruct x as [x|]; [|reflexivity]. apply negb_false_iff in N. now rewrite N.
Qed.
Lemma large_headers strict last x l previous : one_line l -> no_large strict last x l ->
  get_parser_for_header_line (mk_state strict last x) l previous body_parsers =
  (h <- struct_is_header KSubtitle strict (last KSubtitle) l previous ;; if (h : bool) then Ok (Some (BStruct KSubtitle)) else Ok None).
Proof.
  intros O [A S]. unfold body_parsers. cbn [get_parser_for_header_line]. rewrite no_article_header by assumption. cbn [bind is_header struct_is_header bs_strict bs_last].
  rewrite (passed_header strict last KBook) by first [exact O|intros j J; apply S; [discriminate|exact J]]. cbn [bind].
  rewrite (passed_header strict last KPart) by first [exact O|intros j J; apply S; [discriminate|exact J]]. cbn [bind].
  rewrite (passed_header strict last KTitle) by first [exact O|intros j J; apply S; [discriminate|exact J]]. cbn [bind].
  rewrite (passed_header strict last KChapter) by first [exact O|intros j J; apply S; [discriminate|exact J]]. cbn [bind]. reflexivity.
Qed.
Lemma calm_header strict last x l previous : one_line l -> calm strict last x previous l ->
  get_parser_for_header_line (mk_state strict last x) l previous body_parsers = Ok None.
Proof.
  intros O [N B]. rewrite large_headers by assumption. unfold struct_is_header. destruct (l_bold l) eqn:E; cbn [negb]; [|reflexivity]. destruct (B eq_refl) as [B1 B2].
  destruct (bold_content _ E) as (c & t & C). rewrite C. cbn [bind].
  destruct (is_uppercase_hun [c]) eqn:U.
  - apply capital_spec in U. destruct (B2 ltac:(now exists c, t)) as [-> NB]. cbn [negb]. destruct (is_empty_line previous) eqn:P; [apply not_empty_spec in P; contradiction|]. cbn [andb].
    now rewrite (passed_header true last KSubtitle).
  - rewrite andb_false_r. destruct strict; cbn [negb].
    + now rewrite (passed_header true last KSubtitle).
    + destruct (extract_total KSubtitle l) as [[i|] X]; rewrite X; cbn [bind]; [|reflexivity]. exfalso. apply struct_extract_heading in X; [|exact O]. destruct (B1 _ X) as [Y _]. discriminate Y.
Qed.
Lemma struct_heading ls e : struct_in ls e -> exists l t, ls = l :: t /\ (se_kind e <> KSubtitle -> heading (se_kind e) (l_content l) (se_identifier e)) /\
  (se_kind e = KSubtitle -> se_identifier e = [] /\ (forall i, ~ heading KSubtitle (l_content l) i) \/ heading KSubtitle (l_content l) (se_identifier e)).
Proof.
  intros [k l t i u K H _ _|l t n E|l t i u H _|l t u H _]; exists l, t; (split; [reflexivity|]); cbn [se_kind se_identifier]; (split; [intros Q|intros Q]); try congruence; auto.
  now apply heading_special.
Qed.
Lemma struct_starts strict last x l ls previous e : one_line l -> struct_in (l :: ls) e -> starts strict last x previous l e ->
  get_parser_for_header_line (mk_state strict last x) l previous body_parsers = Ok (Some (BStruct (se_kind e))).
Proof.
  intros O SI S. destruct (struct_heading _ _ SI) as (l' & t & [= <- <-] & H1 & H2). unfold starts in S.
  assert (D : se_kind e = KSubtitle \/ se_kind e <> KSubtitle) by (destruct (se_kind e); auto; right; discriminate). destruct D as [D|D].
  - rewrite D in *. destruct S as (B & NL & S). rewrite large_headers by assumption. unfold struct_is_header. rewrite B. cbn [negb]. destruct (bold_content _ B) as (c & u & C). rewrite C. cbn [bind].
    destruct (se_identifier e) as [|y i] eqn:I.
    + destruct S as [(c' & u' & C' & CC) P]. rewrite C in C'. injection C' as <- <-. apply capital_spec in CC. rewrite CC, andb_true_r.
      destruct strict; cbn [negb]; [|reflexivity]. specialize (P eq_refl). apply not_empty_spec in P. rewrite P. reflexivity.
    + destruct (H2 eq_refl) as [[X _]|H]; [discriminate X|]. pose proof (counted_header strict last KSubtitle (y :: i) l O H S) as CH. destruct strict; cbn [negb].
      * destruct (is_empty_line previous && is_uppercase_hun [c]); [reflexivity|]. now rewrite CH.
      * destruct (is_uppercase_hun [c]); [reflexivity|]. apply struct_extract_heading in H; [|exact O]. now rewrite H.
  - specialize (H1 D). assert (C : counted strict last (se_kind e) (se_identifier e)) by (destruct (se_kind e); auto; contradiction). clear S.
    pose proof (counted_header strict last _ _ l O H1 C) as T. unfold body_parsers. cbn [get_parser_for_header_line].
    rewrite no_article_header; [|exact O|intros _ i; now apply (heading_no_article _ _ _ i D H1)]. cbn [bind is_header struct_is_header bs_strict bs_last].
    assert (F : forall k, k <> KSubtitle -> k <> se_kind e -> numbered_header k strict (last k) l = Ok false).
    { intros k K N. apply passed_header; [exact O|]. intros i H. exfalso. apply N. now apply (heading_kinds _ _ _ _ _ K D H H1). }
    destruct (se_kind e) eqn:E; [| | | |contradiction]; repeat (rewrite F by discriminate; cbn [bind]); rewrite T; reflexivity.
Qed.
