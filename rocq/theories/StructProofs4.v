(* No article is missed, and what cannot go wrong in the parsers. *)
From Coq Require Import Lia.
From Coq Require Import ZifyBool ZifyNat ZifyN.
From Verif Require Import PyBase PyBaseFacts NumModel IdModel LineModel DateModel RefModel TreeModel FixupModel StructModel.
From Verif Require Import NumSpec IdSpec LineSpec RefSpec TreeSpec FixupSpec StructSpec NumProofs IdProofs LineProofs TreeProofs FixupProofs
  StructPatterns StructProofs StructProofs2 StructProofs3.
Local Open Scope Z_scope.

(** * No article is missed *)

Lemma article_extract_spec l i : ~ In 10%N (l_content l) -> article_extract l = Some i <-> article_heading (l_content l) i.
Proof.
  intros NL. unfold article_extract. split.
  - intros H. apply match_article_sound in H as (N & t & sp & SP & E). split; [exact N|]. eauto.
  - intros (N & sp & t & SP & E). eapply match_article_make; [exact N|exists sp; eauto|].
    intros X. apply NL. rewrite E. repeat (apply in_or_app; right). exact X.
Qed.

Lemma similar_indent_refl x : finite x -> similar_indent x x = true.
Proof.
  unfold similar_indent, f_sub. destruct x as [s|s| |s m e]; cbn [finite]; try contradiction; intros _.
  - now destruct s.
  - cbn [SpecFloat.SFsub]. rewrite Z.sub_diag. reflexivity.
Qed.

Lemma articles_app a b : articles_of (a ++ b) = articles_of a ++ articles_of b.
Proof. apply flat_map_app. Qed.

Lemma article_found st l prev x : ~ In 10%N (l_content l) -> finite x -> (forall i, bs_indent st = Some i -> i = x) ->
  ((exists i, article_heading (l_content l) i) -> l_indent l = x) ->
  forall h, get_parser_for_header_line st l prev body_parsers = Ok h ->
  match article_extract l with Some _ => h = Some BArticle | None => h <> Some BArticle end.
Proof.
  intros NL FX BI AL h H. unfold body_parsers in H. cbn [get_parser_for_header_line is_header] in H.
  destruct (article_extract l) as [i|] eqn:E.
  - apply article_extract_spec in E; [|exact NL]. rewrite AL in H by eauto.
    assert (X : match bs_indent st with Some i => negb (similar_indent x i) | None => false end = false).
    { destruct (bs_indent st) as [y|]; [|reflexivity]. rewrite (BI y eq_refl). now rewrite similar_indent_refl. }
    rewrite X in H. cbn in H. congruence.
  - assert (X : (if match bs_indent st with Some i => negb (similar_indent (l_indent l) i) | None => false end then Ok false else Ok false) = @Ok bool false)
      by (destruct (match bs_indent st with Some i => _ | None => _ end); reflexivity).
    rewrite X in H. cbn [bind] in H. intros ->. apply (get_parser_in st l prev [BStruct KBook; BStruct KPart; BStruct KTitle; BStruct KChapter; BStruct KSubtitle]) in H as [H _].
    cbn in H. repeat (destruct H as [H|H]; [discriminate|]). exact H.
Qed.
Lemma step_indent st p l st' x : step_to_next st p l = Ok st' -> (p = BArticle -> l_indent l = x) ->
  (forall i, bs_indent st = Some i -> i = x) -> forall i, bs_indent st' = Some i -> i = x.
Proof.
  intros H A B i. destruct p as [|k]; cbn in H.
  - injection H as <-. cbn. intros [= <-]. auto.
  - apply bind_ok in H as (e & _ & [= <-]). cbn. apply B.
Qed.

Definition current_id (current : option body_parser) (cur : list line) : list pystr :=
  match current, cur with
  | Some BArticle, l :: _ => match article_extract l with Some i => [i] | None => [] end
  | _, _ => []
  end.
Lemma body_parse_id p l ls pi c : Forall single_end (l :: ls) -> body_parse p (l :: ls) pi = Ok c ->
  map a_identifier (articles_of [c]) = current_id (Some p) (l :: ls).
Proof.
  intros SE H. destruct p as [|k]; cbn [body_parse] in H.
  - apply bind_ok in H as (a & H & [= <-]). apply parse_article_sound in H as [_ H]; [|exact SE]. cbn. now rewrite H.
  - now apply bind_ok in H as (e & _ & [= <-]).
Qed.

Lemma loop_articles pi x : finite x -> forall ls q st els cur current prev cs ids, Forall fine ls -> Forall fine cur ->
  q = open_after cur -> (current <> None -> cur <> []) ->
  (forall i, bs_indent st = Some i -> i = x) ->
  article_headings x q ls ids ->
  parse_elements_loop st pi (g_items (quote_level_loop true q ls)) (g_end (quote_level_loop true q ls)) els cur current prev = Ok cs ->
  map a_identifier (articles_of cs) = map a_identifier (articles_of els) ++ current_id current cur ++ ids.
Proof.
  intros FX. assert (FS : forall l, Forall fine l -> Forall single_end l) by (intros l; apply Forall_impl; now intros a []).
  induction ls as [|l ls IH]; intros q st els cur current prev cs ids F FC Q NC BI AH H.
  - inversion AH; subst. rewrite app_nil_r. cbn [quote_level_loop g_items g_end andb] in H.
    destruct (negb _); [discriminate|]. cbn in H. destruct current as [p|]; [|discriminate].
    apply bind_ok in H as (c & HB & [= <-]). rewrite articles_app, map_app. f_equal.
    destruct cur as [|c0 cur]; [exfalso; now apply NC|]. eapply body_parse_id; eauto.
  - destruct (quote_loop_cons q l ls) as (t & end_ & E1 & E2 & E3). rewrite E1, E2 in H. clear E1 E2.
    inversion F as [|? ? FL FLS]; subst.
    cbn [parse_elements_loop] in H.
    assert (D : quote_level_diff (l_content l) = open_after [l]) by (rewrite open_after_cons; change (open_after []) with 0; lia).
    assert (Q' : open_after cur + quote_level_diff (l_content l) = open_after (cur ++ [l])) by (rewrite open_after_app; lia).
    assert (CI : current_id current (cur ++ [l]) = current_id current cur \/ current = None \/ cur = []).
    { destruct cur; [auto|]. left. reflexivity. }
    assert (skip : forall prev', article_headings x (open_after cur + open_after [l]) ls ids ->
      parse_elements_loop st pi t end_ els (cur ++ [l]) current prev' = Ok cs ->
      map a_identifier (articles_of cs) = map a_identifier (articles_of els) ++ current_id current cur ++ ids).
    { intros prev' AH' X. destruct E3 as [[-> NE]|[-> ->]]; [destruct (loop_fails st pi end_ els (cur ++ [l]) current prev' NE) as [Y|[y Y]]; congruence|].
      rewrite <- D in AH'.
      eapply IH in X; [|exact FLS|apply Forall_app; split; [exact FC|now constructor]|exact Q'|intros _ Y; now apply app_eq_nil in Y|exact BI|exact AH'].
      rewrite X. f_equal. f_equal. destruct cur as [|c0 cur]; [|reflexivity]. destruct current as [p|]; [|reflexivity].
      exfalso. now apply NC. }
    destruct (Z.eqb_spec (open_after cur) 0) as [Q0|Q0]; cbn [negb] in H.
    2:{ inversion AH; subst; [congruence|]. now apply skip in H. }
    apply bind_ok in H as (h & HP & H). destruct FL as [SL NL].
    assert (AL1 : (exists i, article_heading (l_content l) i) -> l_indent l = x).
    { intros [i I]. inversion AH as [| |? ? ? ? NH]; subst; [reflexivity|]. destruct NH as [NH|NH]; [congruence|]. now apply NH in I. }
    pose proof (article_found st l prev x NL FX BI AL1 h HP) as AF.
    destruct h as [p|].
    + apply bind_ok in H as (els' & HE & H). apply bind_ok in H as (st' & HS & H).
      assert (PI : p = BArticle -> l_indent l = x).
      { intros ->. apply AL1. destruct (article_extract l) as [i|] eqn:E; [|congruence]. exists i. now apply article_extract_spec. }
      assert (E' : map a_identifier (articles_of els') = map a_identifier (articles_of els) ++ current_id current cur).
      { destruct current as [r|].
        - apply bind_ok in HE as (c & HB & [= <-]). rewrite articles_app, map_app. f_equal.
          destruct cur as [|c0 cur]; [exfalso; now apply NC|]. eapply body_parse_id; eauto.
        - injection HE as <-. now rewrite app_nil_r. }
      assert (AH' : exists ids', article_headings x (open_after cur + open_after [l]) ls ids' /\ current_id (Some p) [l] ++ ids' = ids).
      { inversion AH as [|? ? ? i is' _ HI _ AH2|? ? ? ? NH AH2]; subst.
        - exists is'. split; [exact AH2|]. apply article_extract_spec in HI; [|exact NL]. rewrite HI in AF. injection AF as ->. cbn. now rewrite HI.
        - exists ids. split; [exact AH2|]. destruct NH as [NH|NH]; [congruence|]. destruct p as [|k]; [|reflexivity]. cbn.
          destruct (article_extract l) as [i|] eqn:E; [|reflexivity]. apply article_extract_spec in E; [|exact NL]. now apply NH in E. }
      destruct AH' as (ids' & AH' & <-). rewrite <- D in AH'.
      destruct E3 as [[-> NE]|[-> ->]]; [destruct (loop_fails st' pi end_ els' [l] (Some p) l NE) as [Y|[y Y]]; congruence|].
      eapply IH in H; [| | | | | |exact AH'].
      * rewrite H, E', <- !app_assoc. reflexivity.
      * exact FLS.
      * constructor; [now split|constructor].
      * lia.
      * discriminate.
      * eapply step_indent; eauto.
    + inversion AH as [|? ? ? i is' _ HI _ AH2|? ? ? ? NH AH2]; subst.
      * apply article_extract_spec in HI; [|exact NL]. rewrite HI in AF. discriminate.
      * now apply skip in H.
Qed.

Lemma headings_none_app x pre ls q ids : (forall l, In l pre -> forall i, ~ article_heading (l_content l) i) ->
  article_headings x q (pre ++ ls) ids -> article_headings x (q + open_after pre) ls ids.
Proof.
  revert q. induction pre as [|l pre IH]; intros q N H; cbn [app] in H.
  - change (open_after []) with 0. now rewrite Z.add_0_r.
  - inversion H as [|? ? ? i is' _ HI _ _|? ? ? ? _ AH]; subst; [exfalso; eapply N; [now left|exact HI]|].
    apply IH in AH; [|intros y X; apply N; now right].
    replace (q + open_after (l :: pre)) with (q + open_after [l] + open_after pre); [exact AH|].
    change (l :: pre) with ([l] ++ pre). rewrite open_after_app. lia.
Qed.
Lemma no_header_no_article l : ~ In 10%N (l_content l) -> no_header l -> forall i, ~ article_heading (l_content l) i.
Proof.
  intros NL [prev H] i A. apply article_extract_spec in A; [|exact NL]. cbn [get_parser_for_header_line body_parsers is_header create_parsers bs_indent] in H.
  rewrite A in H. discriminate.
Qed.
Lemma body_balanced strict last ls cs : body_in strict last ls cs -> open_after ls = 0.
Proof. induction 1; [reflexivity| |]; rewrite open_after_app; lia. Qed.

Lemma parse_act_articles i d s lines a x ids : Forall fine lines -> finite x -> open_after lines = 0 ->
  article_headings x 0 lines ids -> parse_act i d s lines = Ok a -> map a_identifier (articles_of (act_children a)) = ids.
Proof.
  intros F FX O AH H.
  unfold parse_act in H.
  destruct (' (preamble, rest) <- parse_preamble lines ;; elements <- parse_elements (create_parsers true) rest true ;; Ok (preamble, elements))
    as [[pre els]|e] eqn:E; [|discriminate]. injection H as <-. cbn [act_children].
  apply bind_ok in E as ([pre' rest] & EP & E). apply bind_ok in E as (els' & EE & [= -> ->]).
  unfold parse_preamble in EP. apply bind_ok in EP as (n & EN & [= <- <-]). apply split_point_spec in EN as (L & NH & _).
  pose proof (Forall_skipn' _ n _ F) as F'. pose proof (Forall_firstn' _ n _ F) as F1.
  assert (NA : forall l, In l (firstn n lines) -> forall i, ~ article_heading (l_content l) i).
  { intros l Hl. rewrite Forall_forall in NH, F1. apply no_header_no_article; [now apply F1|now apply NH]. }
  rewrite <- (firstn_skipn n lines) in AH, O. apply headings_none_app in AH; [|exact NA]. rewrite open_after_app in O.
  destruct (parse_elements_sound _ _ _ _ F' EE) as (lead & body & E & O1 & B & _). apply body_balanced in B.
  assert (O2 : open_after (skipn n lines) = 0) by (rewrite E, open_after_app; lia).
  replace (0 + open_after (firstn n lines)) with 0 in AH by lia.
  unfold parse_elements, iterate_with_quote_level in EE. cbv zeta in EE.
  eapply (loop_articles _ x FX) in EE; [exact EE|exact F'|constructor|reflexivity|congruence|discriminate|exact AH].
Qed.

(** * What can go wrong *)

Lemma char_parts_single l : char_parts l -> single_end l.
Proof.
  unfold char_parts, single_end. intros H. destruct (rev (l_parts l)) as [|p r] eqn:E; [exact I|].
  rewrite Forall_forall in H. apply H. apply in_rev. rewrite E. now left.
Qed.
Lemma parts_wf k i ls cs w t : parts k i ls cs w -> well_formed (mk_sae k i None (Some t) (Some cs) w NO_META).
Proof.
  intros [k' i' ck first ls' es w' C E L|i' ls' bs w' Q N]; constructor; cbn [s_text s_children s_kind]; try congruence.
  - destruct es; cbn in L; [lia|]. discriminate.
  - intros _ cs' c d [= <-] Hc Hd. apply elements_kinds in E. rewrite Forall_forall in E.
    apply in_map_iff in Hc as (x & <- & Hx). apply in_map_iff in Hd as (y & <- & Hy). cbn. now rewrite (E x Hx), (E y Hy).
  - intros cs' c [= <-] Hc. apply elements_kinds in E. rewrite Forall_forall in E.
    apply in_map_iff in Hc as (x & <- & Hx). cbn. rewrite (E x Hx). destruct C; constructor.
  - destruct bs; [contradiction|]. discriminate.
  - intros _ cs' c d [= <-] Hc Hd. apply in_map_iff in Hc as (x & <- & Hx). apply in_map_iff in Hd as (y & <- & Hy). reflexivity.
  - intros cs' c [= <-] Hc. apply in_map_iff in Hc as (x & <- & Hx). constructor.
Qed.
Lemma text_wf k i t : well_formed (mk_sae k i (Some t) None None None NO_META).
Proof. constructor; cbn; auto; discriminate. Qed.

Lemma slice_header_ok l k : char_parts l -> (k <= List.length (l_content l))%nat -> exists r, l_slice l (Z.of_nat k) None = Ok r.
Proof.
  intros C L. destruct (slice_char_ok l (Z.of_nat k) None C) as (r & E & _); [| |eauto].
  - rewrite from_end_nonneg by lia. lia.
  - cbn [the_end]. rewrite from_end_nonneg by lia. lia.
Qed.

Lemma sae_parse_errors p subs_of l0 ls pi e : known_conf p -> subs_sound (pc_kind p) subs_of -> Forall char_parts (l0 :: ls) ->
  p = paragraph_conf \/ extract_identifier p l0 <> None ->
  sae_parse p subs_of (l0 :: ls) pi = Err e -> e = SubArticleParsingError.
Proof.
  intros K SS CP ID H.
  assert (SE : Forall single_end (l0 :: ls)) by (eapply Forall_impl; [|exact CP]; apply char_parts_single).
  cbn [sae_parse] in H.
  assert (HP : exists prefix, header_prefix (pc_kind p) (extract_identifier p l0) = Ok prefix /\ startswith prefix (l_content l0) = true).
  { destruct (extract_identifier p l0) as [i|] eqn:E.
    - apply conf_regex in E as [t E]; [|exact K]. rewrite E. exists (header (pc_kind p) i). split; [|apply startswith_app].
      destruct K as [q| | | |]; reflexivity.
    - destruct ID as [->|ID]; [|contradiction]. exists []. split; [reflexivity|]. now destruct (l_content l0). }
  destruct HP as (prefix & HP & ST). rewrite HP in H. cbn [bind] in H. rewrite ST in H. cbn [assert_ bind] in H.
  inversion CP as [|? ? C0 CS]; subst.
  assert (LE : (List.length prefix <= List.length (l_content l0))%nat).
  { apply startswith_split in ST. rewrite ST at 1. rewrite app_length. lia. }
  destruct (slice_header_ok _ _ C0 LE) as [l1 HS]. rewrite HS in H. cbn [bind] in H. inversion SE as [|? ? S0 S1]; subst.
  assert (SE1 : Forall single_end (l1 :: ls)) by (constructor; [eapply slice_single; eauto|exact S1]).
  destruct (subs <- subs_of (extract_identifier p l0) ;; parse_children_and_wrapup subs (l1 :: ls) pi) as [[[intro cs] w]|x] eqn:R.
  - apply bind_ok in R as (subs & R1 & R2). apply SS in R1.
    apply (children_sound _ _ _ _ _ _ _ _ R1 SE1) in R2 as (a & b & E & N & -> & O & P). exfalso.
    pose proof (proj2 (new_sae_ok (pc_kind p) (extract_identifier p l0) None (Some (joined_lines a)) (Some cs) w NO_META _) (conj eq_refl (parts_wf _ _ _ _ _ _ P))). congruence.
  - destruct x; try congruence. exfalso.
    pose proof (proj2 (new_sae_ok (pc_kind p) (extract_identifier p l0) (Some (joined_lines (l1 :: ls))) None None None NO_META _) (conj eq_refl (text_wf _ _ _))). congruence.
Qed.
Lemma parse_article_errors l0 ls pi e : char_parts l0 -> parse_article (l0 :: ls) pi = Err e -> e = ArticleParsingError.
Proof.
  intros C H. unfold parse_article in H. cbn [line_at nth_error bind] in H.
  destruct (article_extract l0) as [i|] eqn:E; [|congruence]. unfold article_extract in E.
  apply match_article_sound in E as [N [t S]]. pose proof (section_position _ _ _ N S) as (n & HI & HS).
  rewrite HI in H. cbn [bind] in H.
  assert (LE : (n + 2 <= List.length (l_content l0))%nat).
  { unfold index_sub in HI. destruct (find_sub (u8 "§ ") (l_content l0)) as [m|] eqn:F; [|discriminate]. injection HI as ->.
    apply find_sub_spec in F as (b & F & L & _). rewrite F. rewrite !app_length, firstn_length. cbn. lia. }
  destruct (slice_header_ok _ _ C LE) as [l1 HL]. rewrite HL in H. cbn [bind] in H.
  destruct (article_parse_body _ _ _); congruence.
Qed.
Lemma parse_act_errors i d s lines e : parse_act i d s lines = Err e -> e = ActParsingError.
Proof. unfold parse_act. destruct (_ : res (pystr * list act_child)) as [[? ?]|]; congruence. Qed.
