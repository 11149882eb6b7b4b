(* Headings, articles and acts: the parsers give only what the lines write. *)
From Coq Require Import Lia.
From Coq Require Import ZifyBool ZifyNat ZifyN.
From Verif Require Import PyBase PyBaseFacts NumModel IdModel LineModel DateModel RefModel TreeModel FixupModel StructModel.
From Verif Require Import NumSpec IdSpec LineSpec RefSpec TreeSpec FixupSpec StructSpec NumProofs IdProofs LineProofs TreeProofs FixupProofs
  StructPatterns StructProofs StructProofs2.
Local Open Scope Z_scope.

(** * Headings *)

Lemma drop_final_none s : ~ In 10%N s -> drop_final_newline s = s.
Proof.
  intros H. destruct (drop_final s) as [(r & -> & _)|[_ E]]; [|exact E]. exfalso. apply H, in_or_app. right. now left.
Qed.
Lemma firstn_app_exact {A} (a b : list A) : firstn (List.length (a ++ b) - List.length b) (a ++ b) = a.
Proof.
  rewrite app_length. replace (List.length a + List.length b - List.length b)%nat with (List.length a) by lia.
  now rewrite firstn_app, firstn_all, Nat.sub_diag, app_nil_r.
Qed.
Lemma match_suffix_spec suffix s g : ~ In 10%N s -> match_suffix suffix s = Some g <-> s = g ++ suffix.
Proof.
  intros H. unfold match_suffix. rewrite (drop_final_none _ H). split.
  - destruct (endswith suffix s) eqn:E; [|discriminate]. apply endswith_spec in E as [t ->].
    rewrite firstn_app_exact. destruct (no_newline t); congruence.
  - intros ->. rewrite (proj2 (endswith_spec suffix (g ++ suffix))) by eauto. rewrite firstn_app_exact.
    rewrite (proj2 (no_newline_spec g)); [reflexivity|]. intros X. apply H, in_or_app. now left.
Qed.

Lemma lower_case_chr c d : ascii_lower c = d <-> (c = d /\ ~ capital_letter d) \/ (capital_letter c /\ (c + 32 = d)%N).
Proof. unfold ascii_lower, is_upper_az, capital_letter. destruct ((65 <=? c) && (c <=? 90))%N eqn:E; lia. Qed.
Lemma lower_case_text s t : Forall (fun c => ~ capital_letter c) t ->
  map ascii_lower s = t <-> in_any_case s t.
Proof.
  intros F. split.
  - intros <-. clear. induction s as [|c s IH]; cbn; constructor; [|exact IH]. unfold ascii_lower.
    destruct (is_upper_az c) eqn:E; [right|now left]. unfold is_upper_az in E. unfold small_letter. lia.
  - induction 1 as [|c d s t H _ IH]; [reflexivity|]. inversion F; subst. cbn. f_equal; [|auto].
    apply lower_case_chr. unfold capital_letter, small_letter in *. lia.
Qed.
Lemma map_split {A B} (f : A -> B) s a b : map f s = a ++ b -> exists x y, s = x ++ y /\ map f x = a /\ map f y = b.
Proof. intros H. apply map_eq_app in H as (x & y & H). eauto. Qed.
Lemma match_suffix_nocase_spec suffix s g : Forall (fun c => ~ capital_letter c) suffix -> ~ In 10%N s ->
  match_suffix_nocase suffix s = Some g <-> exists x, in_any_case x suffix /\ s = g ++ x.
Proof.
  intros F H. unfold match_suffix_nocase. rewrite (drop_final_none _ H). split.
  - destruct (endswith suffix _) eqn:E; [|discriminate]. apply endswith_spec in E as [t E].
    apply map_split in E as (x & y & -> & _ & E). rewrite <- E, map_length, firstn_app_exact.
    destruct (no_newline x); [|discriminate]. intros [= <-]. exists y. split; [|reflexivity].
    apply lower_case_text; [rewrite E; exact F|reflexivity].
  - intros (x & C & ->). apply lower_case_text in C; [|exact F]. rewrite <- C, map_app.
    rewrite (proj2 (endswith_spec (map ascii_lower x) (map ascii_lower g ++ map ascii_lower x))) by eauto.
    rewrite map_length, firstn_app_exact. rewrite (proj2 (no_newline_spec g)); [reflexivity|].
    intros X. apply H, in_or_app. now left.
Qed.

Lemma index_str_spec x l n : index_str x l = Some n -> nth_error l n = Some x.
Proof.
  revert n. induction l as [|y l IH]; intros n H; [discriminate|]. cbn in H. destruct (str_eqb x y) eqn:E.
  - injection H as <-. apply str_eqb_eq in E. now subst.
  - destruct (index_str x l) as [m|]; [|discriminate]. injection H as <-. cbn. auto.
Qed.
Lemma index_str_none x l : index_str x l = None <-> ~ In x l.
Proof.
  induction l as [|y l IH]; cbn; [intuition|]. destruct (str_eqb x y) eqn:E.
  - apply str_eqb_eq in E. subst. split; [discriminate|]. intros H. exfalso. apply H. now left.
  - destruct (index_str x l) as [m|]; cbn.
    + split; [discriminate|]. intros H. exfalso. assert (X : Some m = None) by (apply IH; intuition). discriminate.
    + split; [|reflexivity]. intros _ [H|H]; [subst; now rewrite str_eqb_refl in E|]. now apply (proj1 IH).
Qed.

Lemma ordinal_spec t n : text_to_int_hun t = Ok n <-> ordinal_of n t.
Proof.
  rewrite text_to_int_hun_iff. unfold ordinal_of. split; intros [R H]; (split; [exact R|]).
  - rewrite int_to_text_hun_in in H by exact R. injection H as H. rewrite <- H. reflexivity.
  - rewrite int_to_text_hun_in by exact R. now rewrite H.
Qed.

Lemma from_string_errors k s e : identifier_from_string k s = Err e -> e = ValueError.
Proof.
  destruct k; cbn; intros H.
  - destruct (text_to_int_hun s) eqn:E; [discriminate|]. rewrite text_to_int_hun_reject in E by (intros v; congruence). cbn in H. congruence.
  - destruct (text_to_int_hun s) eqn:E; [discriminate|]. rewrite text_to_int_hun_reject in E by (intros v; congruence). cbn in H. congruence.
  - unfold roman_to_arabic_with_postfix in H. destruct (with_postfix_spec s) as (a & p & _ & _ & _ & X).
    destruct a; [rewrite X in H; cbn in H; congruence|]. destruct X as (v & _ & X). rewrite X in H. discriminate.
  - unfold roman_to_arabic_with_postfix in H. destruct (with_postfix_spec s) as (a & p & _ & _ & _ & X).
    destruct a; [rewrite X in H; cbn in H; congruence|]. destruct X as (v & _ & X). rewrite X in H. discriminate.
  - discriminate.
Qed.
(* the only exceptions are the ones that are caught *)
Lemma extract_total k l : exists r, struct_extract k l = Ok r.
Proof.
  assert (X : exists r, match struct_regex k (l_content l) with
    | None => Ok None
    | Some g => match identifier_from_string k g with
        | Ok i => Ok (Some i) | Err e => if is_value_error e then Ok None else Err e end
    end = Ok r).
  { destruct (struct_regex k (l_content l)) as [g|]; [|eauto]. destruct (identifier_from_string k g) eqn:E; [eauto|].
    apply from_string_errors in E as ->. cbn. eauto. }
  unfold struct_extract. destruct k; try exact X. destruct (index_str _ _); [eauto|exact X].
Qed.

Lemma struct_extract_plain k l i : k <> KPart ->
  struct_extract k l = Ok (Some i) <-> exists g, struct_regex k (l_content l) = Some g /\ identifier_from_string k g = Ok i.
Proof.
  intros K. assert (E : struct_extract k l = match struct_regex k (l_content l) with
    | None => Ok None
    | Some g => match identifier_from_string k g with
        | Ok i => Ok (Some i) | Err e => if is_value_error e then Ok None else Err e end
    end) by (destruct k; [reflexivity|contradiction|reflexivity..]).
  rewrite E. destruct (struct_regex k (l_content l)) as [g|].
  - split.
    + destruct (identifier_from_string k g) as [j|e] eqn:F; [|destruct (is_value_error e); discriminate].
      intros [= <-]. exists g. auto.
    + intros (g' & [= <-] & ->). reflexivity.
  - split; [discriminate|]. intros (g & X & _). discriminate.
Qed.
Lemma subtitle_number_spec i : subtitle_number i <->
  exists d, ascii_digits d /\ d <> [] /\ (i = d \/ exists c, capital_letter c /\ i = d ++ [47%N; c]).
Proof.
  split.
  - intros [d D N|d c D N C]; exists d; eauto 8.
  - intros (d & D & N & [->|(c & C & ->)]); now constructor.
Qed.

Lemma heading_cases k s i : heading k s i ->
  match k with
  | KBook => exists t n, s = t ++ u8 " KÖNYV" /\ ordinal_of n t /\ i = str_of_int n
  | KPart => (exists t n, s = t ++ u8 " RÉSZ" /\ ordinal_of n t /\ i = str_of_int n) \/
      exists n, nth_error special_headings n = Some s /\ i = str_of_int (Z.of_nat n + 1)
  | KTitle => exists t, s = t ++ u8 ". CÍM" /\ roman_to_arabic_with_postfix t = Ok i
  | KChapter => exists t x, s = t ++ x /\ in_any_case x (u8 ". fejezet") /\ roman_to_arabic_with_postfix t = Ok i
  | KSubtitle => exists t, s = i ++ u8 ". " ++ t /\ subtitle_number i
  end.
Proof. intros []; eauto 8. Qed.

Lemma special_not_ordinal m s n : nth_error special_parts m = Some (s ++ u8 " RÉSZ") -> ~ ordinal_of n s.
Proof.
  intros Y O. apply ordinal_spec in O.
  assert (X : s = u8 "ÁLTALÁNOS" \/ s = u8 "KÜLÖNÖS" \/ s = u8 "ZÁRÓ").
  { destruct m as [|[|[|m]]]; cbn [nth_error special_parts] in Y; [| | |now destruct m]; injection Y as Y.
    - left. change (u8 "ÁLTALÁNOS RÉSZ") with (u8 "ÁLTALÁNOS" ++ u8 " RÉSZ") in Y. now apply app_inv_tail in Y.
    - right; left. change (u8 "KÜLÖNÖS RÉSZ") with (u8 "KÜLÖNÖS" ++ u8 " RÉSZ") in Y. now apply app_inv_tail in Y.
    - right; right. change (u8 "ZÁRÓ RÉSZ") with (u8 "ZÁRÓ" ++ u8 " RÉSZ") in Y. now apply app_inv_tail in Y. }
  destruct X as [->|[->| ->]]; vm_compute in O; discriminate.
Qed.

Lemma struct_extract_heading k l i : ~ In 10%N (l_content l) ->
  struct_extract k l = Ok (Some i) <-> heading k (l_content l) i.
Proof.
  intros NL. destruct k.
  - rewrite struct_extract_plain by discriminate. cbn [struct_regex identifier_from_string]. split.
    + intros (g & G & H). apply match_suffix_spec in G; [|exact NL]. rewrite G.
      apply bind_ok in H as (n & H & [= <-]). constructor. now apply ordinal_spec.
    + intros H. apply heading_cases in H as (t & n & E & O & ->). exists t. split; [now apply match_suffix_spec|].
      apply ordinal_spec in O. now rewrite O.
  - unfold struct_extract. destruct (index_str (l_content l) special_parts) as [n|] eqn:E.
    + apply index_str_spec in E. split.
      * intros [= <-]. now apply heading_special.
      * intros H. apply heading_cases in H as [(t & n' & E' & O & ->)|(n' & N & ->)].
        -- exfalso. rewrite E' in E. now apply (special_not_ordinal _ _ n') in E.
        -- do 4 f_equal. assert (ND : NoDup special_parts).
           { repeat constructor; cbn; intros X; repeat (destruct X as [X|X]; [discriminate|]); assumption. }
           change special_headings with special_parts in N. rewrite NoDup_nth_error in ND. f_equal.
           apply ND; [apply nth_error_Some; congruence|congruence].
    + apply index_str_none in E. cbn [struct_regex identifier_from_string].
      assert (NS : forall n, nth_error special_headings n <> Some (l_content l)).
      { intros n N. apply E. change special_parts with special_headings. eapply nth_error_In, N. }
      destruct (match_suffix (u8 " RÉSZ") (l_content l)) as [g|] eqn:G.
      * apply match_suffix_spec in G; [|exact NL]. split.
        -- destruct (n <- text_to_int_hun g;; Ok (str_of_int n)) as [j|e] eqn:F; [|destruct (is_value_error e); discriminate].
           intros [= <-]. apply bind_ok in F as (n & F & [= <-]). rewrite G. constructor. now apply ordinal_spec.
        -- intros H. apply heading_cases in H as [(t & n' & E' & O & ->)|(n' & N & _)]; [|now apply NS in N].
           assert (t = g) by (rewrite G in E'; now apply app_inv_tail in E'). subst t.
           apply ordinal_spec in O. now rewrite O.
      * split; [discriminate|]. intros H. apply heading_cases in H as [(t & n' & E' & O & ->)|(n' & N & _)]; [|now apply NS in N].
        apply (match_suffix_spec _ _ _ NL) in E'. congruence.
  - rewrite struct_extract_plain by discriminate. cbn [struct_regex identifier_from_string]. split.
    + intros (g & G & H). apply match_suffix_spec in G; [|exact NL]. rewrite G. now constructor.
    + intros H. apply heading_cases in H as (t & E & O). exists t. split; [now apply match_suffix_spec|exact O].
  - rewrite struct_extract_plain by discriminate. cbn [struct_regex identifier_from_string].
    assert (F : Forall (fun c => ~ capital_letter c) (u8 ". fejezet")).
    { apply Forall_forall. intros c Hc. cbn in Hc. unfold capital_letter. repeat (destruct Hc as [<-|Hc]; [lia|]). destruct Hc. }
    split.
    + intros (g & G & H). apply match_suffix_nocase_spec in G as (x & X & G); [|exact F|exact NL]. rewrite G. now constructor.
    + intros H. apply heading_cases in H as (t & x & E & C & O). exists t. split; [|exact O].
      apply match_suffix_nocase_spec; eauto.
  - rewrite struct_extract_plain by discriminate. cbn [struct_regex identifier_from_string]. split.
    + intros (g & G & [= <-]). apply match_subtitle_spec in G as (d & t & D & N & -> & X). constructor.
      apply subtitle_number_spec. eauto.
    + intros H. apply heading_cases in H as (t & E & N). exists i. split; [|reflexivity].
      apply subtitle_number_spec in N as (d & D & N & X). apply match_subtitle_spec.
      exists d, t. auto.
Qed.
Lemma struct_extract_no_heading k l : ~ In 10%N (l_content l) ->
  struct_extract k l = Ok None <-> forall i, ~ heading k (l_content l) i.
Proof.
  intros NL. destruct (extract_total k l) as [r R]. rewrite R. split.
  - intros [= ->] i H. apply struct_extract_heading in H; [congruence|exact NL].
  - intros H. destruct r as [i|]; [|reflexivity]. exfalso. apply (H i). now apply struct_extract_heading.
Qed.

(** * Titles of structural elements *)

Ltac plain_letters := apply Forall_forall; intros c Hc; cbn in Hc; unfold capital_letter;
  repeat (destruct Hc as [<-|Hc]; [lia|]); destruct Hc.
Lemma join_prefix ls : forall acc, exists u, fold_left join_step ls acc = acc ++ u.
Proof.
  induction ls as [|s ls IH]; intros acc; cbn [fold_left]; [exists []; now rewrite app_nil_r|].
  destruct (IH (join_step acc s)) as [u ->]. assert (X : exists v, join_step acc s = acc ++ v).
  { unfold join_step. destruct (rev acc) as [|c r] eqn:E.
    - assert (acc = []) by (rewrite <- (rev_involutive acc), E; reflexivity). subst. now exists s.
    - destruct (c =? 45)%N; [now exists s|]. exists (32%N :: s). now rewrite <- app_assoc. }
  destruct X as [v ->]. exists (v ++ u). now rewrite app_assoc.
Qed.
Lemma joined_lines_prefix l ls : exists u, joined_lines (l :: ls) = l_content l ++ u.
Proof.
  unfold joined_lines, join_line_strs. cbn [List.filter]. unfold not_empty_line at 1.
  destruct (is_empty_line l) eqn:E; cbn [negb].
  - apply not_empty_spec in E. rewrite (blank_content _ E). now eexists.
  - cbn [map fold_left]. apply (join_prefix _ (l_content l)).
Qed.
Lemma find_sub_first p a b : (forall m, (m < List.length a)%nat -> startswith p (skipn m (a ++ p ++ b)) = false) ->
  find_sub p (a ++ p ++ b) = Some (List.length a).
Proof.
  induction a as [|c a IH]; intros H.
  - cbn [app List.length]. pose proof (startswith_app p b) as X. destruct (p ++ b); cbn [find_sub]; now rewrite X.
  - cbn [app find_sub List.length]. pose proof (H 0%nat ltac:(cbn; lia)) as H0. cbn [skipn app] in H0. rewrite H0.
    rewrite IH; [reflexivity|]. intros m M. specialize (H (S m) ltac:(cbn; lia)). exact H.
Qed.
Lemma find_sub_chr c r a b : ~ In c a -> find_sub (c :: r) (a ++ (c :: r) ++ b) = Some (List.length a).
Proof.
  intros H. apply find_sub_first. intros m M. 
  assert (X : exists d t, skipn m (a ++ (c :: r) ++ b) = d :: t /\ In d a).
  { rewrite skipn_app. replace (m - List.length a)%nat with 0%nat by lia. rewrite <- (firstn_skipn m a) in H.
    destruct (skipn m a) as [|d t] eqn:E.
    - apply (f_equal (@List.length N)) in E. rewrite skipn_length in E. cbn in E. lia.
    - exists d, (t ++ (c :: r) ++ b). split; [reflexivity|]. rewrite <- (firstn_skipn m a), E. apply in_or_app. right. now left. }
  destruct X as (d & t & -> & I). cbn. destruct (N.eqb_spec c d); [subst; contradiction|reflexivity].
Qed.

Lemma subtitle_no_dot i : subtitle_number i -> ~ In 46%N i.
Proof.
  assert (ND : forall d, ascii_digits d -> ~ In 46%N d).
  { intros d D. unfold ascii_digits in D. rewrite Forall_forall in D. intros H. apply D in H. lia. }
  intros [d D _|d c D _ C] H; [now apply (ND d)|]. apply in_app_or in H as [H|H]; [now apply (ND d)|].
  unfold capital_letter in C. cbn in H. lia.
Qed.

Lemma heading_special_part k s i : heading k s i -> In s special_headings -> k = KPart.
Proof.
  intros H S. apply heading_cases in H. cbn in S. destruct k; [| |exfalso..].
  - exfalso. destruct H as (t & n & E & _). destruct S as [S|[S|[S|[]]]]; rewrite E in S; symmetry in S;
      apply (f_equal (fun x => last x 0%N)) in S; change (u8 " KÖNYV") with (u8 " KÖNY" ++ [86%N]) in S;
      rewrite app_assoc, last_last in S; discriminate.
  - reflexivity.
  - destruct H as (t & E & _). destruct S as [S|[S|[S|[]]]]; rewrite E in S; symmetry in S;
      apply (f_equal (fun x => last x 0%N)) in S; change (u8 ". CÍM") with (u8 ". CÍ" ++ [77%N]) in S;
      rewrite app_assoc, last_last in S; discriminate.
  - destruct H as (t & x & E & C & _). apply lower_case_text in C; [|plain_letters].
    destruct S as [S|[S|[S|[]]]]; rewrite E in S; symmetry in S;
      apply (f_equal (map ascii_lower)) in S; rewrite map_app, C in S;
      apply (f_equal (fun x => last x 0%N)) in S; change (u8 ". fejezet") with (u8 ". fejeze" ++ [116%N]) in S;
      rewrite app_assoc, last_last in S; discriminate.
  - destruct H as (t & E & N). destruct N as [d D N|d c D N C]; destruct d as [|x d]; try contradiction; inversion D; subst;
      destruct S as [S|[S|[S|[]]]]; cbn in S; injection S as S _; lia.
Qed.

Lemma struct_parse_sound k l ls e : ~ In 10%N (l_content l) -> struct_parse k (l :: ls) = Ok e ->
  se_kind e = k /\ struct_in (l :: ls) e /\
  (k = KSubtitle -> forall i, struct_extract k l = Ok (Some i) -> se_identifier e = i) /\
  (k <> KSubtitle -> struct_extract k l = Ok (Some (se_identifier e))) /\
  (struct_extract k l = Ok None -> se_identifier e = []).
Proof.
  intros NL H. cbn [struct_parse] in H.
  assert (plain : k <> KSubtitle -> (k <> KPart \/ ~ In (l_content l) special_headings) ->
    (i <- struct_extract k l;; match i with Some i0 => Ok (mk_struct k i0 (joined_lines ls) false) | None => Err AssertionError end) = Ok e ->
    se_kind e = k /\ struct_in (l :: ls) e /\
    (k = KSubtitle -> forall i, struct_extract k l = Ok (Some i) -> se_identifier e = i) /\
    (k <> KSubtitle -> struct_extract k l = Ok (Some (se_identifier e))) /\
    (struct_extract k l = Ok None -> se_identifier e = [])).
  { clear H. intros K S H. apply bind_ok in H as ([i|] & E & H); [|discriminate]. injection H as <-. cbn.
    repeat split; try congruence. apply struct_titled; [exact K| | |apply joined_lines_text].
    - now apply struct_extract_heading.
    - destruct S as [S|S]; [|exact S]. intros X. apply S. eapply heading_special_part; [|exact X].
      apply struct_extract_heading; eauto. }
  destruct k; try (apply plain; [discriminate|left; discriminate|exact H]).
  - destruct (index_str (l_content l) special_parts) as [n|] eqn:E.
    + injection H as <-. unfold struct_extract. rewrite E. cbn [se_kind se_identifier]. repeat split; try congruence.
      apply struct_special. change special_headings with special_parts. now apply index_str_spec.
    + apply plain; [discriminate| |exact H]. right. now apply index_str_none in E.
  - cbv zeta in H. apply bind_ok in H as ([i|] & E & H).
    + apply bind_ok in H as (t & H1 & [= <-]). cbn [se_kind se_identifier]. repeat split; try congruence.
      apply (struct_extract_heading _ _ _ NL) in E. pose proof E as E'. apply heading_cases in E' as (u & C & N).
      apply struct_subtitle; [exact E|].
      destruct (joined_lines_prefix l ls) as [v J]. rewrite C, <- !app_assoc in J.
      unfold after_dot_space in H1. rewrite J in H1.
      change (u8 ". " ++ u ++ v) with ((46%N :: [32%N]) ++ u ++ v) in H1.
      change (u8 ". ") with (46%N :: [32%N]) in H1. rewrite find_sub_chr in H1 by now apply subtitle_no_dot.
      injection H1 as <-. assert (X : i ++ u8 ". " ++ skipn (List.length i + 2) (i ++ (46%N :: [32%N]) ++ u ++ v) = joined_lines (l :: ls)).
      { rewrite J. change (u8 ". ") with (46%N :: [32%N]). f_equal. rewrite skipn_app, skipn_all2 by lia.
        replace (List.length i + 2 - List.length i)%nat with 2%nat by lia. reflexivity. }
      pose proof (joined_lines_text (l :: ls)) as T. rewrite <- X in T. exact T.
    + injection H as <-. cbn [se_kind se_identifier]. repeat split; try congruence.
      apply struct_unnumbered; [|apply joined_lines_text]. now apply struct_extract_no_heading.
Qed.

(** * Articles *)

Lemma article_tail_spec s : article_tail s = true ->
  exists sp t, (sp = [] \/ sp = [32%N]) /\ s = u8 "." ++ sp ++ u8 "§ " ++ t.
Proof.
  unfold article_tail. intros H. apply orb_prop in H as [H|H]; apply andb_prop in H as [H _]; apply startswith_split in H; rewrite H.
  - exists [32%N]. eexists. split; [now right|reflexivity].
  - exists []. eexists. split; [now left|reflexivity].
Qed.
Lemma article_tail_make sp t : sp = [] \/ sp = [32%N] -> ~ In 10%N t -> article_tail (u8 "." ++ sp ++ u8 "§ " ++ t) = true.
Proof.
  intros H N. unfold article_tail. assert (X : no_newline (drop_final_newline t) = true).
  { rewrite drop_final_none by exact N. now apply no_newline_spec. }
  destruct H as [->| ->].
  - change (u8 "." ++ [] ++ u8 "§ " ++ t) with (u8 ".§ " ++ t). rewrite (startswith_app (u8 ".§ ")).
    change (skipn 3 (u8 ".§ " ++ t)) with t. rewrite X. apply orb_true_r.
  - change (u8 "." ++ [32%N] ++ u8 "§ " ++ t) with (u8 ". § " ++ t). rewrite (startswith_app (u8 ". § ")).
    change (skipn 4 (u8 ". § " ++ t)) with t. rewrite X. reflexivity.
Qed.

Definition section_of (s i t : pystr) : Prop :=
  exists sp, (sp = [] \/ sp = [32%N]) /\ s = i ++ u8 "." ++ sp ++ u8 "§ " ++ t.
Inductive plain_article_number : pystr -> Prop :=
| pan d : ascii_digits d -> d <> [] -> plain_article_number d
| pan_letter d c : ascii_digits d -> d <> [] -> capital_letter c -> plain_article_number (d ++ [47%N; c]).

Lemma article_number_plain i : plain_article_number i <-> article_number i /\ ~ In 58%N i.
Proof.
  assert (ND : forall d, ascii_digits d -> ~ In 58%N d).
  { intros d D. unfold ascii_digits in D. rewrite Forall_forall in D. intros H. apply D in H. lia. }
  split.
  - intros [d D N|d c D N C]; (split; [now constructor|]); [now apply ND|]. intros H. apply in_app_or in H as [H|H]; [now apply (ND d)|].
    unfold capital_letter in C. cbn in H. lia.
  - intros [[d D N|d c D N C|b j D N X J] H]; [now constructor|now constructor|]. exfalso. apply H, in_or_app. right. now left.
Qed.
Lemma article_number_cases i : article_number i <->
  plain_article_number i \/ exists b j, ascii_digits b /\ b <> [] /\ plain_article_number j /\ i = b ++ 58%N :: j.
Proof.
  split.
  - intros [d D N|d c D N C|b j D N X J]; [left; now constructor|left; now constructor|]. right. exists b, j.
    repeat split; auto. now apply article_number_plain.
  - intros [H|(b & j & D & N & J & ->)]; [now apply article_number_plain|]. apply article_number_plain in J as [J1 J2]. now constructor.
Qed.

Lemma match_article_number_spec s i : match_article_number s = Some i -> plain_article_number i /\ exists t, section_of s i t.
Proof.
  unfold match_article_number. destruct (leading_number s) as [[d rest]|] eqn:E; [|discriminate].
  apply leading_number_spec in E as (D & N & -> & _).
  destruct (article_tail rest) eqn:T.
  - intros [= <-]. split; [now constructor|]. apply article_tail_spec in T as (sp & t & S & ->). exists t, sp. auto.
  - destruct rest as [|x [|c t]]; try discriminate. destruct (N.eqb_spec x 47) as [->|]; [|discriminate]. cbn [andb].
    destruct (is_upper_az c) eqn:U; [|discriminate]. cbn [andb]. destruct (article_tail t) eqn:T'; [|discriminate]. intros [= <-].
    split; [constructor; auto; now apply upper_capital|]. apply article_tail_spec in T' as (sp & u & S & ->).
    exists u, sp. split; [exact S|]. now rewrite <- app_assoc.
Qed.
Lemma match_article_number_make s i t : plain_article_number i -> section_of s i t -> ~ In 10%N t ->
  match_article_number s = Some i.
Proof.
  intros H (sp & S & ->) NL. unfold match_article_number. destruct H as [d D N|d c D N C].
  - rewrite (proj2 (leading_number_spec _ d (u8 "." ++ sp ++ u8 "§ " ++ t))) by (repeat split; auto; apply digit_first_no; lia).
    now rewrite article_tail_make.
  - rewrite <- app_assoc. cbn [app].
    rewrite (proj2 (leading_number_spec _ d (47%N :: c :: u8 "." ++ sp ++ u8 "§ " ++ t))) by (repeat split; auto; apply digit_first_no; lia).
    assert (X : article_tail (47%N :: c :: u8 "." ++ sp ++ u8 "§ " ++ t) = false).
    { unfold article_tail. rewrite !startswith_cons_false by lia. reflexivity. }
    rewrite X, article_tail_make by auto. apply upper_capital in C. now rewrite N.eqb_refl, C.
Qed.
Lemma match_article_sound s i : match_article s = Some i -> article_number i /\ exists t, section_of s i t.
Proof.
  unfold match_article. destruct (leading_number s) as [[d rest]|] eqn:E; [|discriminate].
  destruct (startswith (u8 ":") rest) eqn:S.
  - apply startswith_split in S. apply leading_number_spec in E as (D & N & -> & _).
    destruct (match_article_number (skipn 1 rest)) as [j|] eqn:M; [|discriminate]. intros [= <-].
    apply match_article_number_spec in M as (J & t & sp & SP & M). split; [apply article_number_cases; right; eauto 8|].
    exists t, sp. split; [exact SP|]. rewrite S. change (List.length (u8 ":")) with 1%nat. rewrite M, <- app_assoc. reflexivity.
  - intros H. apply match_article_number_spec in H as [J T]. split; [|exact T]. apply article_number_cases. now left.
Qed.
Lemma match_article_make s i t : article_number i -> section_of s i t -> ~ In 10%N t -> match_article s = Some i.
Proof.
  intros H (sp & S & ->) NL. unfold match_article. apply article_number_cases in H as [H|(b & j & D & N & J & ->)].
  - pose proof H as H'. destruct H as [d D N|d c D N C].
    + rewrite (proj2 (leading_number_spec _ d (u8 "." ++ sp ++ u8 "§ " ++ t))) by (repeat split; auto; apply digit_first_no; lia).
      change (u8 ".") with [46%N]. cbn [app]. change (u8 ":") with [58%N]. rewrite startswith_cons_false by lia.
      eapply match_article_number_make; [exact H'| |exact NL]. exists sp. auto.
    + rewrite <- (app_assoc d).
      rewrite (proj2 (leading_number_spec _ d ([47%N; c] ++ u8 "." ++ sp ++ u8 "§ " ++ t))) by (repeat split; auto; apply digit_first_no; lia).
      cbn [app]. change (u8 ":") with [58%N]. rewrite startswith_cons_false by lia.
      eapply match_article_number_make; [exact H'| |exact NL]. exists sp. split; [exact S|]. now rewrite <- app_assoc.
  - rewrite <- app_assoc. cbn [app].
    rewrite (proj2 (leading_number_spec _ b (58%N :: j ++ u8 "." ++ sp ++ u8 "§ " ++ t))) by (repeat split; auto; apply digit_first_no; lia).
    change (u8 ":") with [58%N]. change (58%N :: j ++ u8 "." ++ sp ++ u8 "§ " ++ t) with ([58%N] ++ j ++ u8 "." ++ sp ++ u8 "§ " ++ t).
    rewrite startswith_app. cbn [app skipn].
    erewrite match_article_number_make; [reflexivity|exact J| |exact NL]. exists sp. auto.
Qed.

Lemma article_number_chars i : article_number i -> Forall (fun c => (47 <= c <= 90)%N) i.
Proof.
  assert (D : forall d, ascii_digits d -> Forall (fun c => (47 <= c <= 90)%N) d).
  { intros d H. eapply Forall_impl; [|exact H]. cbn. lia. }
  induction 1 as [d X N|d c X N C|b j X N _ _ IH]; [auto| |]; apply Forall_app; (split; [auto|]); unfold capital_letter in *.
  - repeat apply Forall_cons; try apply Forall_nil; lia.
  - constructor; [lia|exact IH].
Qed.
Lemma section_position s i t : article_number i -> section_of s i t ->
  exists n, index_sub (u8 "§ ") s = Ok n /\ skipn (n + 2) s = t.
Proof.
  intros N (sp & S & ->). exists (List.length (i ++ u8 "." ++ sp)). unfold index_sub.
  replace (i ++ u8 "." ++ sp ++ u8 "§ " ++ t) with ((i ++ u8 "." ++ sp) ++ (167%N :: [32%N]) ++ t)
    by (now rewrite <- !app_assoc).
  split.
  - change (u8 "§ ") with (167%N :: [32%N]). rewrite find_sub_chr; [reflexivity|].
    apply article_number_chars in N. rewrite Forall_forall in N. intros H. apply in_app_or in H as [H|H]; [apply N in H; lia|].
    destruct S as [->| ->]; cbn in H; lia.
  - rewrite skipn_app, skipn_all2 by lia. replace (_ + 2 - _)%nat with 2%nat by lia. reflexivity.
Qed.

Lemma last_chr_cases (s : pystr) c : last_chr s = Ok c <-> exists t, s = t ++ [c].
Proof.
  split; [|intros [t ->]; apply last_chr_snoc].
  unfold last_chr. destruct (rev s) as [|d r] eqn:E; [discriminate|]. intros [= <-]. exists (rev r).
  rewrite <- (rev_involutive s), E. reflexivity.
Qed.
Lemma py_slice_inner a (t : pystr) b : py_slice 1 (-1) (a :: t ++ [b]) = t.
Proof.
  assert (E : Z.of_nat (List.length (a :: t ++ [b])) = Z.of_nat (List.length t) + 2) by (cbn; rewrite app_length; cbn; lia).
  unfold py_slice. replace (norm_bound _ 1) with 1%nat by (unfold norm_bound; replace (1 <? 0) with false by reflexivity; lia).
  replace (norm_bound _ (-1)) with (S (List.length t)) by (unfold norm_bound; replace (-1 <? 0) with true by reflexivity; lia).
  unfold slice_nat. cbn [skipn]. replace (S (List.length t) - 1)%nat with (List.length t) by lia.
  now rewrite firstn_app, firstn_all, Nat.sub_diag, app_nil_r.
Qed.

Lemma article_title_sound lines title rest : article_title lines = Ok (title, rest) ->
  titled lines title rest \/ repeated_title lines title rest.
Proof.
  unfold article_title. intros H. destruct lines as [|l ls]; [discriminate|]. cbn [line_at nth_error bind] in H.
  destruct (l_content l) as [|c t] eqn:C; [discriminate|]. cbn [first_chr bind] in H.
  destruct (N.eqb_spec c 91) as [->|NC].
  2:{ injection H as <- <-. left. eapply untitled; eauto. }
  apply bind_ok in H as (e0 & E0 & H). destruct (N.eqb_spec e0 93) as [->|N0].
  - injection H as <- <-. left. apply last_chr_cases in E0 as [u E0]. destruct u as [|d u]; [discriminate|].
    injection E0 as <- E0. rewrite E0. rewrite py_slice_inner. apply title_line. now rewrite C, E0.
  - assert (U : forall u, l_content l <> u ++ [93%N]).
    { intros u X. apply last_chr_cases in E0 as [v E0]. rewrite C, E0 in X. apply app_inj_tail in X as [_ X]. contradiction. }
    apply bind_ok in H as (l1 & L1 & H). destruct ls as [|l1' ls]; [discriminate|]. injection L1 as ->.
    apply bind_ok in H as (e1 & E1 & H). apply last_chr_cases in E1 as [t1 E1]. destruct (N.eqb_spec e1 93) as [->|N1].
    + injection H as <- <-. left. eapply title_two_lines; eauto. rewrite C in *. rewrite E1, drop_last_snoc. apply join_joined.
    + apply bind_ok in H as (l2 & L2 & H). destruct ls as [|l2' ls]; [discriminate|]. injection L2 as ->.
      apply bind_ok in H as (e2 & E2 & H). apply last_chr_cases in E2 as [t2 E2]. destruct (N.eqb_spec e2 93) as [->|N2]; [|discriminate].
      injection H as <- <-. right. eapply title_three_lines; eauto. rewrite E1, drop_last_snoc. apply join_joined.
Qed.

Lemma titled_suffix lines title rest : titled lines title rest \/ repeated_title lines title rest -> exists a, lines = a ++ rest.
Proof.
  intros [[l ls c t C N|l ls t C|l l' ls t t' j C U C' J]|[l l' l'' ls t t' c j C U C' N C'' J]].
  - now exists [].
  - now exists [l].
  - now exists [l; l'].
  - now exists [l; l'; l''].
Qed.

Lemma kind_filter ps : Forall (fun p => s_kind p = KParagraph) ps ->
  List.filter (fun p => sae_kind_eqb (s_kind p) KParagraph) ps = ps.
Proof. induction 1 as [|p ps E H IH]; [reflexivity|]. cbn. now rewrite E, IH. Qed.
Lemma elements_kinds k i ls es w : elements k i ls es w -> Forall (fun p => s_kind p = k) es.
Proof.
  induction 1 as [k i ls kept e w L E I|k i j group ls e es w E I O F H IH].
  - constructor; [|constructor]. now apply elements_numbering in E.
  - constructor; [|exact IH]. now apply elements_numbering in E.
Qed.

Lemma article_body_sound i l1 ls pi a : Forall single_end (l1 :: ls) -> article_parse_body i (l1 :: ls) pi = Ok a ->
  exists title rest blanks body ps, a = mk_article i title ps /\
    (titled (l1 :: ls) title rest \/ repeated_title (l1 :: ls) title rest) /\
    rest = blanks ++ body /\ Forall blank blanks /\ (List.length blanks <= 1)%nat /\ paragraphs_in body ps.
Proof.
  intros SE H. unfold article_parse_body in H. apply bind_ok in H as ([title rest] & HT & H).
  apply article_title_sound in HT. apply bind_ok in H as (l0 & L0 & H). cbv zeta in H.
  assert (B : exists blanks, rest = blanks ++ (if is_empty_line l0 then skipn 1 rest else rest) /\ Forall blank blanks /\ (List.length blanks <= 1)%nat).
  { destruct rest as [|r rest]; [discriminate|]. injection L0 as ->. destruct (is_empty_line l0) eqn:E.
    - exists [l0]. apply not_empty_spec in E. repeat split; auto.
    - exists []. repeat split; auto. }
  destruct B as (blanks & RB & FB & LB). set (body := if is_empty_line l0 then skipn 1 rest else rest) in *. clearbody body.
  assert (SB : Forall single_end body).
  { destruct (titled_suffix _ _ _ HT) as [pre E]. rewrite E, RB in SE. apply Forall_app in SE as [_ SE]. now apply Forall_app in SE. }
  apply bind_ok in H as (b0 & B0 & H). apply bind_ok in H as (ps & HP & H). destruct body as [|b body]; [discriminate|].
  injection B0 as ->.
  assert (P : paragraphs_in (b0 :: body) ps /\ Forall (fun p => s_kind p = KParagraph) ps).
  { destruct (opt_eqb _ _ _) eqn:E.
    - apply bind_ok in HP as ([es w] & HP & HW). destruct w; [discriminate|]. injection HW as <-.
      apply (extract_multiple_sound paragraph_conf) in HP as [HP _]; [|constructor|apply paragraph_subs_sound|exact SB].
      split; [now apply more_paragraphs|]. eapply elements_kinds, HP.
    - apply bind_ok in HP as (p & HP & [= <-]).
      apply (sae_parse_sound paragraph_conf) in HP as [HP HI]; [|constructor|apply paragraph_subs_sound|exact SB|now left].
      split.
      + apply one_paragraph; [exact HP|]. intros X. rewrite HI in X. rewrite X in E. cbn in E; discriminate.
      + constructor; [|constructor]. now apply elements_numbering in HP. }
  destruct P as [P KP]. rewrite kind_filter in H by exact KP. apply new_article_ok in H as [-> _].
  exists title, rest, blanks, (b0 :: body), ps. repeat split; auto.
Qed.

Lemma parse_article_sound l0 ls pi a : Forall single_end (l0 :: ls) -> parse_article (l0 :: ls) pi = Ok a ->
  article_in (l0 :: ls) a /\ article_extract l0 = Some (a_identifier a).
Proof.
  intros SE H. unfold parse_article in H. cbn [line_at nth_error bind] in H.
  destruct (article_extract l0) as [i|] eqn:E; [|discriminate]. unfold article_extract in E.
  apply match_article_sound in E as [N [t S]]. destruct (section_position _ _ _ N S) as (n & HI & HS).
  rewrite HI in H. cbn [bind] in H. apply bind_ok in H as (l1 & HL & H). inversion SE as [|? ? S0 S1]; subst.
  pose proof (slice_single _ _ _ S0 HL) as S2. apply (slice_drop _ _ _ S0) in HL. rewrite <- HL in S. clear HI.
  cbn [skipn] in H.
  destruct (article_parse_body i (l1 :: ls) pi) as [a'|e] eqn:B; [|discriminate]. injection H as <-.
  apply article_body_sound in B as (title & rest & blanks & body & ps & -> & T & R & FB & LB & P); [|now constructor].
  split; [|reflexivity]. destruct S as (sp & SP & S). eapply article_written; eauto.
Qed.

(** * Bodies *)

(* a line that the theorems below allow: its last part is one character, and there is no line break in it *)
Definition fine (l : line) : Prop := single_end l /\ ~ In 10%N (l_content l).

Lemma heading_not_empty k s i : heading k s i -> i <> [].
Proof.
  intros H. apply heading_cases in H.
  assert (SI : forall n, str_of_int n <> []).
  { intros n X. unfold str_of_int in X. destruct (n <? 0); [discriminate|]. now apply dec_N_nonempty in X. }
  assert (RO : forall t, roman_to_arabic_with_postfix t = Ok i -> i <> []).
  { intros t R. unfold roman_to_arabic_with_postfix in R. apply bind_ok in R as ([v q] & _ & [= <-]). intros E. apply app_eq_nil in E as [E _]. now apply SI in E. }
  destruct k.
  - destruct H as (t & n & _ & _ & ->). apply SI.
  - destruct H as [(t & n & _ & _ & ->)|(n & _ & ->)]; apply SI.
  - destruct H as (t & _ & R). eapply RO, R.
  - destruct H as (t & x & _ & _ & R). eapply RO, R.
  - destruct H as (t & _ & N). destruct N as [d _ N|d c _ N _]; [exact N|]. now destruct d.
Qed.

Lemma get_parser_in st l prev : forall ps p, get_parser_for_header_line st l prev ps = Ok (Some p) -> In p ps /\ is_header st p l prev = Ok true.
Proof.
  induction ps as [|q ps IH]; intros p H; [discriminate|]. cbn in H. apply bind_ok in H as ([] & E & H).
  - injection H as <-. split; [now left|exact E].
  - apply IH in H as [H1 H2]. split; [now right|exact H2].
Qed.

Lemma uppercase_not_digit c : is_uppercase_hun [c] = true -> ~ (48 <= c <= 57)%N.
Proof.
  cbn [is_uppercase_hun forallb]. intros H D. rewrite andb_true_r in H. apply mem_chr_In in H.
  assert (X : forallb (fun c => negb ((48 <=? c) && (c <=? 57))%N) hungarian_uppercase_chars = true) by (vm_compute; reflexivity).
  rewrite forallb_forall in X. specialize (X _ H). cbv beta in X. lia.
Qed.

Lemma numbered_header_ok k strict last l : numbered_header k strict last l = Ok true ->
  exists i, struct_extract k l = Ok (Some i) /\ (strict = true -> i = u8 "1" \/ is_next_numeric_identifier last i = Ok true).
Proof.
  unfold numbered_header. intros H. apply bind_ok in H as ([i|] & E & H); [|discriminate]. exists i. split; [exact E|].
  intros ->. cbn [negb] in H. destruct (str_eqb i (u8 "1")) eqn:X; [left; now apply str_eqb_eq|right; exact H].
Qed.

(* what a header that was found gives, with the lines up to the next one *)
Lemma element_sound st p l prev st' ls pi c : fine l -> Forall single_end ls ->
  is_header st p l prev = Ok true -> step_to_next st p l = Ok st' -> body_parse p (l :: ls) pi = Ok c ->
  bs_strict st' = bs_strict st /\
  match c with
  | AArticle a => article_in (l :: ls) a /\ bs_last st' = bs_last st
  | AStruct e => struct_in (l :: ls) e /\ bs_last st' = next_last (bs_last st) e /\
      (bs_strict st = true -> se_identifier e <> [] ->
         se_identifier e = u8 "1" \/ is_next_numeric_identifier (bs_last st (se_kind e)) (se_identifier e) = Ok true)
  end.
Proof.
  intros [SE NL] F IH ST H. destruct p as [|k]; cbn [body_parse step_to_next] in *.
  - injection ST as <-. apply bind_ok in H as (a & H & [= <-]). split; [reflexivity|]. cbn.
    split; [|reflexivity]. now apply parse_article_sound in H; [|constructor].
  - apply bind_ok in H as (e & H & [= <-]). apply bind_ok in ST as (i & E & [= <-]). split; [reflexivity|]. cbn [bs_last].
    destruct (struct_parse_sound _ _ _ _ NL H) as (K & SI & S1 & S2 & S3). split; [exact SI|].
    assert (ID : se_identifier e = match i with Some i => i | None => [] end).
    { destruct i as [i|]; [|now apply S3]. destruct (struct_kind_eqb k KSubtitle) eqn:KS.
      - assert (k = KSubtitle) by (destruct k; try discriminate; reflexivity). subst k. now apply S1.
      - rewrite S2 in E; [congruence|]. intros ->. discriminate. }
    split.
    + unfold next_last. rewrite K, ID. destruct i as [i|]; [|reflexivity].
      assert (NE : i <> []) by (apply (struct_extract_heading _ _ _ NL) in E; now apply heading_not_empty in E).
      destruct i; [contradiction|reflexivity].
    + intros SR NE. destruct i as [i|]; [|now rewrite ID in NE]. rewrite ID, K.
      cbn [is_header] in IH. unfold struct_is_header in IH.
      assert (X : numbered_header k (bs_strict st) (bs_last st k) l = Ok true).
      { destruct k; try exact IH. destruct (negb (l_bold l)); [discriminate|]. apply bind_ok in IH as (c & C & IH).
        rewrite SR in IH. cbn [negb] in IH. destruct (is_empty_line prev && is_uppercase_hun [c]) eqn:B; [|now rewrite SR].
        exfalso. apply andb_prop in B as [_ B]. apply uppercase_not_digit in B. apply B.
        apply (struct_extract_heading _ _ _ NL) in E. apply heading_cases in E as (t & EQ & N). rewrite EQ in C.
        destruct N as [d D N|d x D N _]; destruct d as [|y d]; try contradiction; inversion D; subst; injection C as <-; assumption. }
      apply numbered_header_ok in X as (j & X & Y). rewrite E in X. injection X as <-. exact (Y SR).
Qed.

Lemma quote_loop_cons q l ls : exists t end_, g_items (quote_level_loop true q (l :: ls)) = (q, l) :: t /\
  g_end (quote_level_loop true q (l :: ls)) = end_ /\
  ((t = [] /\ end_ <> None) \/
   (t = g_items (quote_level_loop true (q + quote_level_diff (l_content l)) ls) /\
    end_ = g_end (quote_level_loop true (q + quote_level_diff (l_content l)) ls))).
Proof.
  cbn [quote_level_loop andb]. destruct (_ <? 0); cbn [g_items g_end]; eexists; eexists; (split; [reflexivity|]); (split; [reflexivity|]).
  - left. split; [reflexivity|discriminate].
  - now right.
Qed.
Lemma loop_fails st pi e els cur current prev : e <> None -> parse_elements_loop st pi [] e els cur current prev = Err ValueError \/
  exists x, parse_elements_loop st pi [] e els cur current prev = Err x.
Proof. destruct e; [|contradiction]. cbn. eauto. Qed.

Lemma loop_sound pi : forall ls q st els cur current prev cs, Forall fine ls -> q = open_after cur ->
  parse_elements_loop st pi (g_items (quote_level_loop true q ls)) (g_end (quote_level_loop true q ls)) els cur current prev = Ok cs ->
  match current with
  | None => exists lead body cs', ls = lead ++ body /\ cs = els ++ cs' /\ open_after (cur ++ lead) = 0 /\
      body_in (bs_strict st) (bs_last st) body cs' /\ cs' <> []
  | Some p => exists group body c cs', ls = group ++ body /\ body_parse p (cur ++ group) pi = Ok c /\
      cs = els ++ c :: cs' /\ open_after (cur ++ group) = 0 /\ body_in (bs_strict st) (bs_last st) body cs'
  end.
Proof.
  induction ls as [|l ls IH]; intros q st els cur current prev cs F Q H.
  - cbn [quote_level_loop g_items g_end andb] in H. destruct (Z.eqb_spec q 0) as [Q0|Q0]; [|discriminate]. cbn in H.
    destruct current as [p|]; [|discriminate]. apply bind_ok in H as (c & HB & [= <-]).
    exists [], [], c, []. rewrite !app_nil_r. repeat split; auto; [congruence|constructor].
  - destruct (quote_loop_cons q l ls) as (t & end_ & E1 & E2 & E3). rewrite E1, E2 in H. clear E1 E2.
    cbn [parse_elements_loop] in H. inversion F as [|? ? FL FLS]; subst.
    assert (Q' : forall a, open_after a = open_after cur -> open_after cur + quote_level_diff (l_content l) = open_after (a ++ [l])).
    { intros a A. rewrite open_after_app, A, open_after_cons. change (open_after []) with 0. lia. }
    assert (skip : forall prev',
      parse_elements_loop st pi t end_ els (cur ++ [l]) current prev' = Ok cs ->
      match current with
      | None => exists lead body cs', l :: ls = lead ++ body /\ cs = els ++ cs' /\ open_after (cur ++ lead) = 0 /\
          body_in (bs_strict st) (bs_last st) body cs' /\ cs' <> []
      | Some p => exists group body c cs', l :: ls = group ++ body /\ body_parse p (cur ++ group) pi = Ok c /\
          cs = els ++ c :: cs' /\ open_after (cur ++ group) = 0 /\ body_in (bs_strict st) (bs_last st) body cs'
      end).
    { intros prev' X. destruct E3 as [[-> NE]|[-> ->]]; [destruct (loop_fails st pi end_ els (cur ++ [l]) current prev' NE) as [Y|[x Y]]; congruence|].
      apply IH in X; [|exact FLS|now apply Q']. destruct current as [p|].
      - destruct X as (group & body & c & cs' & -> & B & C & O & BI). exists (l :: group), body, c, cs'.
        rewrite <- app_assoc in B, O. auto.
      - destruct X as (lead & body & cs' & -> & C & O & BI & NN). exists (l :: lead), body, cs'. rewrite <- app_assoc in O. auto. }
    destruct (Z.eqb_spec (open_after cur) 0) as [Q0|Q0]; cbn [negb] in H; [|now apply skip in H].
    apply bind_ok in H as ([p|] & HP & H); [|now apply skip in H].
    apply bind_ok in H as (els' & HE & H). apply bind_ok in H as (st' & HS & H).
    apply get_parser_in in HP as [_ HP].
    assert (found : exists body c cs', l :: ls = body /\ cs = els' ++ c :: cs' /\ body_in (bs_strict st) (bs_last st) body (c :: cs')).
    { destruct E3 as [[-> NE]|[-> ->]]; [destruct (loop_fails st' pi end_ els' [l] (Some p) l NE) as [Y|[x Y]]; congruence|].
      apply IH in H; [|exact FLS|].
      2:{ rewrite Q0. rewrite open_after_cons. change (open_after []) with 0. lia. }
      destruct H as (group & body & c & cs' & -> & B & C & O & BI). cbn [app] in B, O.
      exists ((l :: group) ++ body), c, cs'. split; [reflexivity|]. split; [exact C|].
      apply Forall_app in FLS as [FG _].
      destruct (element_sound st p l prev st' group pi c FL) as [SS SO]; auto.
      { eapply Forall_impl; [|exact FG]. now intros a []. }
      rewrite SS in BI. destruct c as [e|a].
      - destruct SO as (S1 & S2 & S3). rewrite S2 in BI. now apply body_struct.
      - destruct SO as (S1 & S2). rewrite S2 in BI. now apply body_article. }
    destruct found as (body & c & cs' & E & C & BI). destruct current as [r|].
    + apply bind_ok in HE as (c0 & HB & [= <-]). exists [], body, c0, (c :: cs'). rewrite !app_nil_r.
      rewrite <- app_assoc in C. cbn in C. auto.
    + injection HE as <-. exists [], body, (c :: cs'). rewrite !app_nil_r. repeat split; auto. discriminate.
Qed.

Lemma parse_elements_sound st lines pi cs : Forall fine lines -> parse_elements st lines pi = Ok cs ->
  exists lead body, lines = lead ++ body /\ open_after lead = 0 /\ body_in (bs_strict st) (bs_last st) body cs /\ cs <> [].
Proof.
  intros F H. unfold parse_elements, iterate_with_quote_level in H. cbv zeta in H.
  apply loop_sound in H as (lead & body & cs' & E & -> & O & B & N); [|exact F|reflexivity]. exists lead, body. auto.
Qed.

(* a line that is a header after some line is a header after an empty one *)
Lemma header_after_empty st l prev : forall ps p,
  get_parser_for_header_line st l prev ps = Ok (Some p) -> exists p', get_parser_for_header_line st l EMPTY_LINE ps = Ok (Some p').
Proof.
  induction ps as [|q ps IH]; intros p H; [discriminate|]. cbn in *. apply bind_ok in H as (b & E & H).
  assert (X : exists b', is_header st q l EMPTY_LINE = Ok b' /\ (b = true -> b' = true)).
  { destruct q as [|k]; cbn [is_header] in *; [eauto|]. unfold struct_is_header in *.
    destruct k; try (eexists; split; [exact E|auto]).
    destruct (negb (l_bold l)); [eauto|]. apply bind_ok in E as (c & C & E). rewrite C. cbn [bind].
    destruct (negb (bs_strict st)); [eauto|]. change (is_empty_line EMPTY_LINE) with true. cbn [andb].
    destruct (is_uppercase_hun [c]); [eauto|]. rewrite andb_false_r in E. eauto. }
  destruct X as (b' & -> & B). cbn [bind]. destruct b'; [eauto|]. destruct b; [discriminate B; reflexivity|]. eauto.
Qed.

Definition no_header (l : line) : Prop := exists prev, get_parser_for_header_line (create_parsers true) l prev body_parsers = Ok None.
Lemma split_point_spec : forall lines prev n, find_split_point lines prev = Ok n ->
  (n <= List.length lines)%nat /\ Forall no_header (firstn n lines) /\
  forall l t, skipn n lines = l :: t -> exists prev' p, get_parser_for_header_line (create_parsers true) l prev' body_parsers = Ok (Some p).
Proof.
  induction lines as [|l lines IH]; intros prev n H; cbn [find_split_point] in H.
  - injection H as <-. repeat split; [auto|constructor|]. intros; discriminate.
  - apply bind_ok in H as ([p|] & E & H).
    + injection H as <-. repeat split; [cbn; lia|constructor|]. intros l' t [= <- _]. eauto.
    + apply bind_ok in H as (m & H & [= <-]). apply IH in H as (L & F & R). repeat split; [cbn; lia| |exact R].
      cbn. constructor; [now exists prev|exact F].
Qed.

Lemma parse_act_sound i d s lines a : Forall fine lines -> parse_act i d s lines = Ok a ->
  exists preamble body, lines = preamble ++ body /\ text_in preamble (act_preamble a) /\ Forall no_header preamble /\
    body_in true (fun _ => u8 "0") body (act_children a) /\ act_children a <> [] /\
    act_identifier a = i /\ act_publication_date a = d /\ act_subject a = s.
Proof.
  intros F H. unfold parse_act in H.
  destruct (' (preamble, rest) <- parse_preamble lines ;; elements <- parse_elements (create_parsers true) rest true ;; Ok (preamble, elements))
    as [[pre els]|e] eqn:E; [|discriminate]. injection H as <-. cbn [act_preamble act_children act_identifier act_publication_date act_subject].
  apply bind_ok in E as ([pre' rest] & EP & E). apply bind_ok in E as (els' & EE & [= -> ->]).
  unfold parse_preamble in EP. apply bind_ok in EP as (n & EN & [= <- <-]). apply split_point_spec in EN as (L & NH & HD).
  exists (firstn n lines), (skipn n lines). split; [now rewrite firstn_skipn|]. split; [apply joined_lines_text|]. split; [exact NH|].
  pose proof (Forall_skipn' _ n _ F) as F'.
  unfold parse_elements, iterate_with_quote_level in EE. cbv zeta in EE.
  destruct (skipn n lines) as [|l t] eqn:SK; [cbn in EE; discriminate|].
  destruct (HD l t eq_refl) as (prev & p & HP). apply header_after_empty in HP as [p' HP].
  destruct (quote_loop_cons 0 l t) as (items & end_ & E1 & E2 & E3). rewrite E1, E2 in EE. cbn [parse_elements_loop] in EE.
  change (negb (0 =? 0)) with false in EE. cbv iota in EE. rewrite HP in EE. cbn [bind] in EE.
  apply bind_ok in EE as (st' & HS & EE). apply get_parser_in in HP as [_ HP].
  destruct E3 as [[-> NE]|[-> ->]]; [destruct (loop_fails st' true end_ [] [l] (Some p') l NE) as [Y|[x Y]]; congruence|].
  inversion F' as [|? ? FL FT]; subst.
  apply loop_sound in EE; [|exact FT|rewrite open_after_cons; change (open_after []) with 0; lia].
  destruct EE as (group & body & c & cs' & -> & B & C & O & BI). cbn [app] in B, O, C. subst els.
  apply Forall_app in FT as [FG _].
  destruct (element_sound _ _ _ _ _ group true c FL ltac:(eapply Forall_impl; [|exact FG]; now intros a []) HP HS B) as [SS SO].
  split; [|split; [discriminate|auto]]. rewrite SS in BI. change (l :: group ++ body) with ((l :: group) ++ body).
  destruct c as [e|a].
  - destruct SO as (S1 & S2 & S3). rewrite S2 in BI. now apply body_struct.
  - destruct SO as (S1 & S2). rewrite S2 in BI. now apply body_article.
Qed.
