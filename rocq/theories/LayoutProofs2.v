(* Every layout of a tree is read as that tree: elements, articles. *)
From Coq Require Import Lia Permutation.
From Coq Require Import ZifyBool ZifyNat ZifyN.
From Verif Require Import PyBase PyBaseFacts NumModel IdModel LineModel DateModel RefModel TreeModel FixupModel StructModel.
From Verif Require Import NumSpec IdSpec LineSpec RefSpec TreeSpec FixupSpec StructSpec LayoutSpec NumProofs IdProofs LineProofs TreeProofs FixupProofs
  StructPatterns StructProofs StructProofs2 StructProofs3 StructProofs4 StructProofs5 LayoutProofs.
Local Open Scope Z_scope.

(** * The text after the list *)

Lemma indent_none limit : forall ls before, Forall (fun x => f_ltb (l_indent x) limit = false) ls -> wrapup_by_indent limit before ls = None.
Proof. induction ls as [|l ls IH]; intros before F; [reflexivity|]. inversion F as [|? ? E F']; subst. cbn. rewrite E. now apply IH. Qed.
Lemma indent_some limit : forall ls before y wrap, Forall (fun x => f_ltb (l_indent x) limit = false) ls -> f_ltb (l_indent y) limit = true ->
  wrapup_by_indent limit before (ls ++ y :: wrap) = Some (before ++ ls, y :: wrap).
Proof.
  induction ls as [|l ls IH]; intros before y wrap F Y; cbn [app wrapup_by_indent].
  - now rewrite Y, app_nil_r.
  - inversion F as [|? ? E F']; subst. rewrite E, IH by assumption. now rewrite <- app_assoc.
Qed.
Lemma margin_pass : forall u before after, Forall (fun x => f_ltb (f_of_Z 20) (l_margin_right x) = false) u ->
  wrapup_by_margin (rev u ++ before) after = wrapup_by_margin before (u ++ after).
Proof.
  induction u as [|l u IH] using rev_ind; intros before after F; [reflexivity|]. apply Forall_app in F as [F1 F2].
  rewrite rev_unit. cbn [app wrapup_by_margin]. rewrite (Forall_inv F2), IH by exact F1. now rewrite <- app_assoc.
Qed.
Lemma all_but_last (P : line -> Prop) u z : (forall a x y b, u ++ [z] = a ++ x :: y :: b -> P x) -> Forall P u.
Proof.
  intros H. rewrite Forall_forall. intros x I. apply in_split in I as (a & b & ->). rewrite <- app_assoc in H. cbn [app] in H.
  destruct b as [|y b]; [now apply (H a x z [])|now apply (H a x y (b ++ [z]))].
Qed.
Lemma split_last_complete p subs k first pi ls kept w : class p subs k first -> last_item pi k ls kept w ->
  split_last_item_and_wrapup p ls pi = Ok (kept, w).
Proof.
  intros C H. pose proof (class_known _ _ _ _ C) as (K & EK & _). pose proof (wrapup_kinds p K) as W. rewrite EK in W.
  unfold split_last_item_and_wrapup. destruct H as [k ls A|k ls l kept N1 N2 WB H|k ls l kept y wrap t N1 N2 WB J H].
  - destruct (pc_can_have_wrapup p); [tauto|reflexivity].
  - destruct (pc_can_have_wrapup p); [|tauto]. cbn [negb]. apply blanks_unique in WB. rewrite <- WB. destruct pi.
    + now rewrite indent_none.
    + destruct (rev (l :: kept)) as [|z u] eqn:R; [reflexivity|].
      assert (E : l :: kept = rev u ++ [z]) by (rewrite <- (rev_involutive (l :: kept)), R; reflexivity).
      rewrite E in H. apply all_but_last in H. pose proof (margin_pass (rev u) [] [z] H) as X.
      rewrite rev_involutive, app_nil_r in X. rewrite X. reflexivity.
  - destruct (pc_can_have_wrapup p); [|tauto]. cbn [negb]. apply blanks_unique in WB. rewrite <- WB.
    apply joined_unique in J as ->. destruct pi.
    + destruct H as [H1 H2]. cbn [app]. now rewrite indent_some.
    + destruct H as [H1 H2].
      destruct (exists_last (l := y :: wrap)) as (u & z & E); [discriminate|]. rewrite E in *. apply all_but_last in H2.
      rewrite app_assoc, rev_unit, rev_app_distr, margin_pass by exact H2.
      destruct (exists_last (l := l :: kept)) as (v & x & E'); [discriminate|].
      assert (X : last kept l = x).
      { transitivity (last (l :: kept) l); [now destruct kept|]. now rewrite E', last_last. }
      rewrite X in H1. rewrite E', rev_unit. cbn [wrapup_by_margin]. rewrite H1. cbn [rev]. now rewrite rev_involutive.
Qed.

(** * Quoted blocks *)

Definition qloop (state : quote_state) (blocks : list (list line)) (q : Z) (ls : list line) : res (quote_state * list (list line)) :=
  quoted_loop state blocks (g_items (quote_level_loop true q ls)) (g_end (quote_level_loop true q ls)).
Lemma qloop_nil state blocks : qloop state blocks 0 [] = Ok (state, blocks).
Proof. reflexivity. Qed.
Lemma qloop_cons state blocks q l ls : balanced q (l :: ls) ->
  qloop state blocks q (l :: ls) = (' (state, blocks) <- quoted_step state blocks q l ;; qloop state blocks (q + open_after [l]) ls).
Proof. intros B. unfold qloop. rewrite balanced_loop by exact B. reflexivity. Qed.
Lemma balanced_next q l ls : balanced q (l :: ls) -> balanced (q + open_after [l]) ls.
Proof. intros B. now inversion B. Qed.
Lemma blank_open l : blank l -> open_after [l] = 0.
Proof. intros B. rewrite open_after_cons, (blank_content _ B). reflexivity. Qed.
Lemma blank_empty l : blank l -> is_empty_line l = true.
Proof. apply not_empty_spec. Qed.
Lemma typed_chars l : typed l -> ~ blank l -> is_empty_line l = false /\ exists c t, l_content l = c :: t.
Proof.
  intros T N. split.
  - destruct (is_empty_line l) eqn:E; [|reflexivity]. apply not_empty_spec in E. contradiction.
  - destruct (l_content l) as [|c t] eqn:E; [|eauto]. apply typed_content in E; [contradiction|exact T].
Qed.

Lemma qloop_blanks state blocks : state = QStart \/ state = QWrapUpMaybe -> forall bl q ls, Forall blank bl -> balanced q (bl ++ ls) ->
  qloop state blocks q (bl ++ ls) = qloop state blocks q ls /\ balanced q ls.
Proof.
  intros S. induction bl as [|l bl IH]; intros q ls F B; [auto|]. inversion F as [|? ? BL F']; subst. cbn [app] in *.
  pose proof (balanced_next _ _ _ B) as B'. rewrite qloop_cons by exact B. rewrite (blank_open _ BL), Z.add_0_r in *.
  destruct S as [-> | ->]; cbn [quoted_step]; rewrite (blank_empty _ BL); cbn [bind]; now apply IH.
Qed.
Lemma qloop_wrap_up blocks : forall ls q t, balanced q ls ->
  qloop (QWrapUp t) blocks q ls = Ok (QWrapUp (fold_left join_step (map l_content (List.filter not_empty_line ls)) t), blocks).
Proof.
  induction ls as [|l ls IH]; intros q t B.
  - inversion B. reflexivity.
  - rewrite qloop_cons by exact B. pose proof (balanced_next _ _ _ B) as B'. cbn [quoted_step List.filter]. unfold not_empty_line at 1.
    destruct (is_empty_line l); cbn [bind negb map fold_left]; rewrite IH by exact B'; reflexivity.
Qed.
Lemma qloop_block blocks e e' ls : ends_quote e -> l_slice e 0 (Some (-1)) = Ok e' -> forall mid q quoted,
  (forall a x b, mid = a ++ x :: b -> ends_quote x -> q + open_after (a ++ [x]) <> 0) ->
  q + open_after (mid ++ [e]) = 0 -> Forall typed (mid ++ [e]) -> balanced q (mid ++ e :: ls) ->
  qloop (QBlock quoted) blocks q (mid ++ e :: ls) = qloop QWrapUpMaybe (blocks ++ [quoted ++ mid ++ [e']]) 0 ls.
Proof.
  intros [t E] SE. induction mid as [|l mid IH]; intros q quoted M O T B.
  - cbn [app] in *. rewrite qloop_cons by exact B. cbn [quoted_step].
    replace (is_empty_line e) with false by (unfold is_empty_line; destruct e as [[|] ?]; [destruct t; discriminate|reflexivity]).
    rewrite E, last_chr_snoc. cbn [bind]. change ((8221 =? 8221)%N) with true. rewrite <- E.
    assert (D : quote_level_diff (l_content e) = open_after [e]) by (rewrite open_after_cons; change (open_after []) with 0; lia).
    rewrite D, O. change (0 =? 0) with true. cbn [andb]. rewrite SE. cbn [bind]. reflexivity.
  - cbn [app] in *. rewrite qloop_cons by exact B. pose proof (balanced_next _ _ _ B) as B'. inversion T as [|? ? T0 T1]; subst.
    change (l :: mid ++ [e]) with ([l] ++ mid ++ [e]) in O. rewrite open_after_app in O.
    assert (D : quote_level_diff (l_content l) = open_after [l]) by (rewrite open_after_cons; change (open_after []) with 0; lia).
    assert (S : quoted_step (QBlock quoted) blocks q l = Ok (QBlock (quoted ++ [l]), blocks)).
    { cbn [quoted_step]. destruct (is_empty_line l) eqn:EL; [reflexivity|].
      destruct (last_chr (l_content l)) as [c|x] eqn:LC.
      - cbn [bind]. rewrite D. destruct ((c =? 8221)%N && (q + open_after [l] =? 0)) eqn:X; [|reflexivity]. exfalso.
        apply andb_true_iff in X as [X1 X2]. apply (M [] l mid); [reflexivity|apply (ends_quote_last _ _ LC); lia|]. cbn [app]. lia.
      - exfalso. destruct (typed_chars l T0) as (_ & c & u & EC).
        + intros BL. apply blank_empty in BL. congruence.
        + destruct (exists_last (l := c :: u)) as (v & z & EV); [discriminate|]. rewrite EC, EV, last_chr_snoc in LC. discriminate. }
    rewrite S. cbn [bind]. rewrite IH; auto.
    + now rewrite <- app_assoc.
    + intros a x b EM EQ. specialize (M (l :: a) x b). cbn [app] in M. change (l :: a ++ [x]) with ([l] ++ a ++ [x]) in M. rewrite open_after_app in M.
      rewrite <- Z.add_assoc. apply M; [now rewrite EM|exact EQ].
    + now rewrite <- Z.add_assoc.
Qed.
Lemma opens_quote c : opens c -> is_open_quote c = true.
Proof. apply open_quote_spec. Qed.

Lemma quotes_read ls bs w : quotes ls bs w -> forall state blocks, Forall typed ls -> balanced 0 ls ->
  state = QWrapUpMaybe \/ state = QStart /\ bs <> [] ->
  exists st, qloop state blocks 0 ls = Ok (st, blocks ++ bs) /\ final_wrap_up st w.
Proof.
  induction 1 as [ls F|bl l ls t F NB NO TX|bl l l' c t ls bs w F OC E O SL _ IH|bl l l' c mid e e' ls bs w F OC [t E] NE M EE O SL SE _ IH];
    intros state blocks T B ST; apply Forall_app in T as [TA TB] || idtac.
  - rewrite <- (app_nil_r ls) in B |- *. destruct ST as [->|[_ []]]; [|reflexivity].
    destruct (qloop_blanks QWrapUpMaybe blocks (or_intror eq_refl) _ _ _ F B) as [-> _].
    exists QWrapUpMaybe. rewrite qloop_nil, app_nil_r. split; [reflexivity|now left].
  - destruct ST as [->|[_ []]]; [|reflexivity].
    destruct (qloop_blanks QWrapUpMaybe blocks (or_intror eq_refl) _ _ _ F B) as [-> B']. rewrite qloop_cons by exact B'.
    destruct (typed_chars l (Forall_inv TB) NB) as (EL & c & u & EC). cbn [quoted_step]. rewrite EL, EC. cbn [first_chr bind].
    destruct (is_open_quote c) eqn:IO; [exfalso; apply open_quote_spec in IO; apply (NO c IO); exists u; exact EC|].
    cbn [andb bind]. rewrite qloop_wrap_up by (now apply balanced_next). eexists. rewrite app_nil_r. split; [reflexivity|]. right. eexists. split; [reflexivity|].
    apply text_in_joined in TX as ->. unfold joined_lines. cbn [List.filter]. unfold not_empty_line at 1. rewrite EL. cbn [negb map]. rewrite EC. reflexivity.
  - assert (S : state = QStart \/ state = QWrapUpMaybe) by tauto.
    destruct (qloop_blanks state blocks S _ _ _ F B) as [-> B']. rewrite qloop_cons by exact B'. apply balanced_next in B'. rewrite O in *.
    assert (X : quoted_step state blocks 0 l = Ok (QWrapUpMaybe, blocks ++ [[l']])).
    { assert (EL : is_empty_line l = false) by (unfold is_empty_line; destruct l as [[|] ?]; [discriminate|reflexivity]).
      assert (OB : open_block l blocks = Ok (QWrapUpMaybe, blocks ++ [[l']])).
      { unfold open_block. rewrite E. rewrite app_comm_cons, last_chr_snoc. cbn [bind]. change ((8221 =? 8221)%N) with true. cbv iota. now rewrite SL. }
      destruct S as [-> | ->]; cbn [quoted_step]; rewrite EL, E; cbn [first_chr bind]; rewrite (opens_quote _ OC); change (0 =? 0) with true;
        cbn [andb assert_ bind]; exact OB. }
    rewrite X. cbn [bind]. destruct (IH QWrapUpMaybe (blocks ++ [[l']])) as (st & H1 & H2); auto; [now inversion TB|].
    exists st. rewrite Z.add_0_r, H1, <- app_assoc. auto.
  - assert (S : state = QStart \/ state = QWrapUpMaybe) by tauto.
    destruct (qloop_blanks state blocks S _ _ _ F B) as [-> B']. cbn [app] in *. rewrite <- app_assoc in *. cbn [app] in *.
    rewrite qloop_cons by exact B'. pose proof (balanced_next _ _ _ B') as B2. inversion TB as [|? ? T0 T1]; subst.
    assert (X : quoted_step state blocks 0 l = Ok (QBlock [l'], blocks)).
    { assert (EL : is_empty_line l = false) by (unfold is_empty_line; destruct l as [[|] ?]; [discriminate|reflexivity]).
      assert (OB : open_block l blocks = Ok (QBlock [l'], blocks)).
      { unfold open_block. destruct (exists_last (l := l_content l)) as (v & z & EV); [rewrite E; discriminate|]. rewrite EV, last_chr_snoc. cbn [bind].
        destruct (N.eqb_spec z 8221) as [->|]; [exfalso; apply NE; now exists v|]. now rewrite SL. }
      destruct S as [-> | ->]; cbn [quoted_step]; rewrite EL, E; cbn [app first_chr bind]; rewrite (opens_quote _ OC); change (0 =? 0) with true;
        cbn [andb assert_ bind]; exact OB. }
    rewrite X. cbn [bind]. change (l :: mid ++ [e]) with ([l] ++ mid ++ [e]) in O. rewrite open_after_app in O.
    assert (TM : Forall typed (mid ++ [e]) /\ Forall typed ls).
    { replace (mid ++ e :: ls) with ((mid ++ [e]) ++ ls) in T1 by (now rewrite <- app_assoc). now apply Forall_app in T1. }
    rewrite (qloop_block blocks e e' ls EE SE mid _ [l']); try tauto; try lia.
    + destruct (IH QWrapUpMaybe (blocks ++ [[l'] ++ mid ++ [e']])) as (st & H1 & H2); try tauto.
      * change (mid ++ e :: ls) with (mid ++ [e] ++ ls) in B2. rewrite app_assoc in B2. apply balanced_tail in B2.
        replace (0 + open_after [l] + open_after (mid ++ [e])) with 0 in B2 by lia. exact B2.
      * exists st. rewrite H1, <- app_assoc. auto.
    + intros a x b EM EQ. specialize (M a x b EM EQ). change (l :: a ++ [x]) with ([l] ++ a ++ [x]) in M. rewrite open_after_app in M. lia.
Qed.
Lemma quotes_extracted pi ls bs w : quotes ls bs w -> Forall typed ls -> balanced 0 ls -> bs <> [] ->
  quoted_extract ls pi = Ok (map ChQuoted bs, w).
Proof.
  intros Q T B N. destruct (quotes_read _ _ _ Q QStart [] T B (or_intror (conj eq_refl N))) as (st & H & F).
  unfold quoted_extract, iterate_with_quote_level. cbv zeta. unfold qloop in H. rewrite H. cbn [bind app].
  destruct F as [[-> ->]|(t & -> & ->)]; reflexivity.
Qed.

(** * Elements *)

Lemma same_content l l' : typed l -> typed l' -> l_content l = l_content l' -> is_empty_line l = is_empty_line l'.
Proof.
  intros T T' E. destruct (is_empty_line l) eqn:B, (is_empty_line l') eqn:B'; auto.
  - apply not_empty_spec in B. rewrite (blank_content _ B) in E. symmetry in E. apply typed_content in E; [|exact T']. apply not_empty_spec in E. congruence.
  - apply not_empty_spec in B'. rewrite (blank_content _ B') in E. apply typed_content in E; [|exact T]. apply not_empty_spec in E. congruence.
Qed.
Lemma joined_same l l' ls : typed l -> typed l' -> l_content l = l_content l' -> joined_lines (l :: ls) = joined_lines (l' :: ls).
Proof.
  intros T T' E. unfold joined_lines. cbn [List.filter].
  assert (X : not_empty_line l = not_empty_line l') by (unfold not_empty_line; now rewrite (same_content l l' T T' E)). rewrite X.
  destruct (not_empty_line l'); cbn [map]; [now rewrite E|reflexivity].
Qed.
Lemma open_same l l' : l_content l = l_content l' -> open_after [l] = open_after [l'].
Proof. intros E. rewrite !open_after_cons. now rewrite E. Qed.
Lemma outside_head (P : line -> Prop) q l l' ls : (P l -> P l') -> open_after [l] = open_after [l'] -> outside P q (l :: ls) -> outside P q (l' :: ls).
Proof. intros H E O. inversion O as [|? ? ? A B]; subst. constructor; [auto|now rewrite <- E]. Qed.
Lemma balanced_head q l l' ls : open_after [l] = open_after [l'] -> balanced q (l :: ls) -> balanced q (l' :: ls).
Proof. intros E B. inversion B as [|? ? ? A C]; subst. constructor; now rewrite <- E. Qed.

Lemma item_plain p subs k first i : class p subs k first -> item_id k first i -> plain i.
Proof.
  assert (S : forall s, Forall small_letter s -> plain s).
  { intros s. apply Forall_impl. unfold small_letter. intros. lia. }
  intros C I. inversion I as [? ? n l N|? ? ? n l _ N|? q c K L|? ? ? K D]; subst; try (now apply (numbered_plain_text i n l)).
  - apply plain_app; [|now apply S; constructor]. inversion C as [| | |q' Q|]; subst; try (now destruct K as []).
    + destruct q as [|x q]; [constructor|]. exfalso. apply (f_equal (@List.length N)) in H2. rewrite app_length in H2. cbn in H2. lia.
    + apply app_inj_tail in H2 as [<- _]. now apply S.
  - apply S. destruct D as [-> | ->]; repeat constructor; discriminate.
Qed.

Lemma header_parsed p subs k first i l0 l1 : class p subs k first -> header_of k first i l0 l1 ->
  extract_identifier p l0 = i /\ exists prefix l1', header_prefix (pc_kind p) i = Ok prefix /\ startswith prefix (l_content l0) = true /\
    l_slice l0 (Z.of_nat (List.length prefix)) None = Ok l1' /\ typed l1' /\ l_content l1' = l_content l1 /\ open_after [l0] = open_after [l1] /\
    (i = None -> k = KParagraph) /\ (forall j, i = Some j -> item_id k first j).
Proof.
  intros C (T0 & T1 & H). pose proof (class_known _ _ _ _ C) as (K & EK & _).
  assert (E : extract_identifier p l0 = i).
  { destruct i as [i|].
    - destruct H as [I H]. eapply extract_item; eauto. now exists (l_content l1).
    - destruct H as (_ & _ & H). destruct (extract_identifier p l0) as [j|] eqn:E; [|reflexivity]. exfalso.
      apply (extract_item_inv _ _ _ _ _ _ C) in E as [I B]. now apply (H j). }
  split; [exact E|].
  assert (X : exists prefix, header_prefix (pc_kind p) i = Ok prefix /\ l_content l0 = prefix ++ l_content l1 /\ quote_free prefix).
  { destruct i as [i|].
    - destruct H as [I H]. exists (header k i). split; [|split; [exact H|apply header_plain; eapply item_plain; eauto]].
      destruct C; reflexivity.
    - destruct H as (-> & H & _). exists []. rewrite EK. split; [reflexivity|]. split; [exact H|]. reflexivity. }
  destruct X as (prefix & HP & CE & QF).
  destruct (slice_header_ok l0 (List.length prefix) T0) as [l1' S]; [rewrite CE, app_length; lia|].
  exists prefix, l1'. split; [exact HP|]. split; [rewrite CE; apply startswith_app|]. split; [exact S|].
  destruct (slice_char_ok l0 (Z.of_nat (List.length prefix)) None T0) as (r & S' & TR & _).
  { rewrite from_end_nonneg by lia. lia. } { cbn [the_end]. rewrite from_end_nonneg by lia. lia. }
  assert (r = l1') by congruence. subst r. split; [exact TR|].
  split; [rewrite (slice_drop _ _ _ (char_parts_single _ T0) S), CE; now rewrite skipn_app, skipn_all, Nat.sub_diag|].
  split.
  - rewrite !open_after_cons, CE, !quote_level_diff_spec, opening_app, closing_app. unfold quote_free in QF. lia.
  - split; [intros ->; now destruct H|]. intros j ->. now destruct H.
Qed.

Lemma layout_balanced pi k first ls s : layout pi k first ls s -> balanced 0 ls.
Proof.
  intros []; [assumption| |]; change (l0 :: ls0 ++ more :: rest) with ((l0 :: ls0) ++ more :: rest); now apply balanced_join.
Qed.
Lemma layouts_start pi k first i ls es w : layouts pi k first i ls es w -> exists l t, ls = l :: t /\ begins_with (header k i) l /\ item_id k first i.
Proof. intros []; eauto. Qed.

Lemma outside_tests k i (tests : list sub_test) : (forall l, starts_nothing k i l -> Forall (fun t => snd t l = false) tests) ->
  forall ls, outside (starts_nothing k i) 0 ls -> Forall (fun t => outside (fun l => snd t l = false) 0 ls) tests.
Proof.
  intros H ls O. rewrite Forall_forall. intros t T. eapply outside_impl; [|exact O]. intros l S. cbv beta. specialize (H l S).
  rewrite Forall_forall in H. now apply H.
Qed.

Definition parsed_list (pi : bool) (p : pconf) (subs : option pystr -> res (list sub_parser)) (k : sae_kind) (first i : pystr)
    (ls : list line) (es : list sae) (w : option pystr) : Prop :=
  exists gs lg es' e kept, ls = concat gs ++ lg /\ Forall2 (fun g e => sae_parse p subs g pi = Ok e) gs es' /\
    split_last_item_and_wrapup p lg pi = Ok (kept, w) /\ sae_parse p subs kept pi = Ok e /\ es = es' ++ [e] /\
    Forall (fun e => s_kind e = k) es /\
    forall n last, match ls with l :: _ => expected k first last i l | [] => False end ->
      hloop p n 0 ls last = mk_gen (offsets n (gs ++ [lg])) None.

Lemma list_extracted pi p subs k first ls es w : class p subs k first -> parsed_list pi p subs k first first ls es w ->
  (exists l t, ls = l :: t /\ begins_with (header k first) l /\ item_id k first first) ->
  (2 <= List.length es)%nat \/ pc_must_have_multiple p = false -> extract_multiple p subs ls pi = Ok (es, w).
Proof.
  intros C (gs & lg & es' & e & kept & E & F & SL & PE & -> & KS & HL) (l & t & EL & B & I) M.
  pose proof (class_known _ _ _ _ C) as (K & EK & EF).
  unfold extract_multiple, find_header_lines, iterate_with_quote_level. cbv zeta.
  specialize (HL O None). rewrite EL in HL at 1. specialize (HL eq_refl). unfold hloop in HL. rewrite HL. unfold gen_all. cbn [g_end g_items bind].
  assert (OH : exists hs, offsets 0 (gs ++ [lg]) = O :: hs) by (destruct gs; cbn; eauto). destruct OH as [hs OH].
  pose proof (last_offset gs lg 0) as LO. pose proof (items_offsets (fun ls => sae_parse p subs ls pi) gs lg [] 0 es' eq_refl F) as IO.
  cbn [app] in IO. rewrite <- E in IO. rewrite OH in *. cbn [Nat.eqb assert_ bind]. rewrite EL at 1.
  rewrite (extract_item _ _ _ _ _ _ C I B), EF. cbn [opt_eqb]. rewrite str_eqb_refl. cbn [assert_ bind].
  assert (LEN : (List.length (O :: hs) = List.length (es' ++ [e]))%nat).
  { rewrite <- OH, app_length. cbn [List.length]. clear - F. assert (X : forall n, List.length (offsets n (gs ++ [lg])) = (List.length es' + 1)%nat).
    { induction F as [|g e gs es P F IH]; intros n; [reflexivity|]. cbn [app offsets List.length]. rewrite IH. reflexivity. }
    apply X. }
  rewrite LEN. replace (Nat.ltb (List.length (es' ++ [e])) 2 && pc_must_have_multiple p) with false.
  2:{ destruct M as [M| ->]; [|now rewrite andb_false_r]. destruct (Nat.ltb_spec (List.length (es' ++ [e])) 2); [lia|reflexivity]. }
  rewrite IO. cbn [bind]. rewrite LO. cbn [Nat.add]. rewrite E at 1. rewrite skipn_app, skipn_all, Nat.sub_diag. cbn [skipn app].
  rewrite SL. cbn [bind]. rewrite PE. reflexivity.
Qed.

Lemma layout_parsed pi :
  (forall k first ls s, layout pi k first ls s -> forall p subs, class p subs k first -> sae_parse p subs ls pi = Ok s /\ s_kind s = k) /\
  (forall k first i ls es w, layouts pi k first i ls es w -> forall p subs, class p subs k first -> balanced 0 ls ->
     parsed_list pi p subs k first i ls es w).
Proof.
  apply layout_mutind.
  - (* text *)
    intros k first i l0 l1 ls t H T TX B O p subs C. split; [|reflexivity].
    destruct (header_parsed _ _ _ _ _ _ _ C H) as (E & prefix & l1' & HP & SW & SL & T1' & CE & OE & IN & II).
    pose proof (class_known _ _ _ _ C) as (_ & EK & _).
    destruct (subs_tests _ _ _ _ i C IN II) as (tests & ES & G & EX & NT & _).
    cbn [sae_parse]. rewrite E, HP. cbn [bind]. rewrite SW. cbn [assert_ bind]. rewrite SL. cbn [bind]. rewrite ES. cbn [bind].
    assert (OE' : open_after [l1'] = open_after [l1]) by now apply open_same.
    rewrite no_children_found; [|exact G| | |].
    + apply text_in_joined in TX as ->. destruct H as (_ & T1 & _). rewrite EK, (joined_same l1 l1' ls) by (auto; congruence).
      apply new_sae_ok. split; [reflexivity|apply text_wf].
    + eapply balanced_head; [|exact B]. congruence.
    + now constructor.
    + eapply outside_tests; [exact NT|]. eapply outside_head; [| |exact O]; [|congruence].
      intros [S1 S2]. split; [intros ck cf CL [u U1]; apply (S1 ck cf CL); exists u; congruence|].
      intros KP c OC [u U1]. apply (S2 KP c OC). exists u. congruence.
  - (* parts *)
    intros k first i l0 l1 ls more rest t ck cf es w H T TX B O CL B2 LY IH LEN p subs C. split; [|reflexivity].
    destruct (header_parsed _ _ _ _ _ _ _ C H) as (E & prefix & l1' & HP & SW & SL & T1' & CE & OE & IN & II).
    pose proof (class_known _ _ _ _ C) as (_ & EK & _).
    destruct (subs_tests _ _ _ _ i C IN II) as (tests & ES & G & EX & NT & CH & _).
    destruct (CH ck cf CL) as (cp & cs & CC & ICP).
    assert (OE' : open_after [l1'] = open_after [l1]) by now apply open_same.
    pose proof (layouts_start _ _ _ _ _ _ _ LY) as ST.
    assert (EM : extract_multiple cp cs (more :: rest) pi = Ok (es, w)) by (eapply list_extracted; eauto).
    destruct (IH cp cs CC B2) as (_ & _ & _ & _ & _ & _ & _ & _ & _ & _ & KS & _).
    destruct ST as (x & u & EX' & BW & _). injection EX' as <- <-.
    cbn [sae_parse]. rewrite E, HP. cbn [bind]. rewrite SW. cbn [assert_ bind]. rewrite SL. cbn [bind]. rewrite ES. cbn [bind].
    change (l1' :: ls ++ more :: rest) with ((l1' :: ls) ++ more :: rest).
    assert (BH : balanced 0 (l1' :: ls)) by (eapply balanced_head; [|exact B]; congruence).
    rewrite (children_found tests (l1' :: ls) more rest (as_sub cp cs) (starts_list cp) pi (map ChSae es) w); auto.
    + apply text_in_joined in TX as ->. destruct H as (_ & T1 & _). rewrite EK, (joined_same l1 l1' ls) by (auto; congruence).
      apply new_sae_ok. split; [reflexivity|]. constructor; cbn [s_text s_children s_kind]; try congruence.
      * destruct es; [cbn in LEN; lia|discriminate].
      * intros _ cs' c d [= <-] Hc Hd. rewrite Forall_forall in KS.
        apply in_map_iff in Hc as (y & <- & Hy). apply in_map_iff in Hd as (z & <- & Hz). cbn. now rewrite (KS y Hy), (KS z Hz).
      * intros cs' c [= <-] Hc. rewrite Forall_forall in KS. apply in_map_iff in Hc as (y & <- & Hy). cbn. rewrite (KS y Hy). destruct CL; constructor.
    + now apply balanced_join.
    + apply Forall_app in T as [TA TB]. apply Forall_app. split; [now constructor|exact TB].
    + discriminate.
    + apply balanced_level in BH. lia.
    + eapply outside_tests; [exact NT|]. eapply outside_head; [| |exact O]; [|congruence].
      intros [S1 S2]. split; [intros ck' cf' CL' [u U1]; apply (S1 ck' cf' CL'); exists u; congruence|].
      intros KP c OC [u U1]. apply (S2 KP c OC). exists u. congruence.
    + now apply (starts_list_spec _ _ _ _ _ CC).
    + cbn [sp_extract as_sub]. rewrite EM. reflexivity.
  - (* quoted *)
    intros first i l0 l1 ls more rest t c bs w H T TX B O OC BC B2 Q NB p subs C. split; [|reflexivity].
    destruct (header_parsed _ _ _ _ _ _ _ C H) as (E & prefix & l1' & HP & SW & SL & T1' & CE & OE & IN & II).
    pose proof (class_known _ _ _ _ C) as (_ & EK & _).
    destruct (subs_tests _ _ _ _ i C IN II) as (tests & ES & G & EX & NT & _ & QS).
    specialize (QS eq_refl).
    assert (OE' : open_after [l1'] = open_after [l1]) by now apply open_same.
    cbn [sae_parse]. rewrite E, HP. cbn [bind]. rewrite SW. cbn [assert_ bind]. rewrite SL. cbn [bind]. rewrite ES. cbn [bind].
    change (l1' :: ls ++ more :: rest) with ((l1' :: ls) ++ more :: rest).
    assert (BH : balanced 0 (l1' :: ls)) by (eapply balanced_head; [|exact B]; congruence).
    apply Forall_app in T as [TA TB].
    rewrite (children_found tests (l1' :: ls) more rest quoted_sub starts_quote pi (map ChQuoted bs) w); auto.
    + apply text_in_joined in TX as ->. destruct H as (_ & T1 & _). rewrite EK, (joined_same l1 l1' ls) by (auto; congruence).
      apply new_sae_ok. split; [reflexivity|]. constructor; cbn [s_text s_children s_kind]; try congruence.
      * destruct bs; [contradiction|discriminate].
      * intros _ cs' x d [= <-] Hc Hd. apply in_map_iff in Hc as (y & <- & Hy). apply in_map_iff in Hd as (z & <- & Hz). reflexivity.
      * intros cs' x [= <-] Hc. apply in_map_iff in Hc as (y & <- & Hy). constructor.
    + now apply balanced_join.
    + apply Forall_app. split; [now constructor|exact TB].
    + discriminate.
    + apply balanced_level in BH. lia.
    + eapply outside_tests; [exact NT|]. eapply outside_head; [| |exact O]; [|congruence].
      intros [S1 S2]. split; [intros ck' cf' CL' [u U1]; apply (S1 ck' cf' CL'); exists u; congruence|].
      intros KP d OD [u U1]. apply (S2 KP d OD). exists u. congruence.
    + apply starts_quote_spec. eauto.
    + cbn [sp_extract quoted_sub]. now apply quotes_extracted.
  - (* last *)
    intros k first i l ls kept e w I BW Q LI _ IH SI p subs C B. destruct (IH p subs C) as [P KE].
    exists [], (l :: ls), [], e, kept. split; [reflexivity|]. split; [constructor|]. split; [eapply split_last_complete; eauto|].
    split; [exact P|]. split; [reflexivity|]. split; [constructor; [exact KE|constructor]|].
    intros n last X. rewrite <- (app_nil_r ls) in B |- *. rewrite (hloop_group _ _ _ _ _ _ _ _ _ _ C I BW X B Q).
    cbv zeta. apply balanced_level in B. rewrite app_nil_r in B.
    replace (open_after (l :: ls)) with 0 by lia. reflexivity.
  - (* more *)
    intros k first i j l ls l' rest e es w I BW Q LY IH SI NX ND LS IHS p subs C B. destruct (IH p subs C) as [P KE].
    pose proof (balanced_level _ _ (layout_balanced _ _ _ _ _ LY)) as OL.
    change (l :: ls ++ l' :: rest) with ((l :: ls) ++ l' :: rest) in B. pose proof (balanced_tail _ _ _ B) as B'. rewrite OL in B'.
    destruct (IHS p subs C B') as (gs & lg & es' & e' & kept & E & F & SL & PE & -> & KS & HL).
    exists ((l :: ls) :: gs), lg, (e :: es'), e', kept. split; [cbn [concat]; rewrite <- app_assoc, <- E; reflexivity|].
    split; [now constructor|]. split; [exact SL|]. split; [exact PE|]. split; [reflexivity|]. split; [now constructor|].
    intros n last X. rewrite (hloop_group _ _ _ _ _ _ _ _ _ _ C I BW X B Q). cbv zeta.
    replace (open_after (l :: ls)) with 0 by lia. rewrite HL by (split; assumption). reflexivity.
Qed.
