(* Layouts of what amendments put in are parsed. *)
From Coq Require Import Lia.
From Verif Require Import PyBase PyBaseFacts NumModel NumSpec IdModel IdSpec IdProofs LineModel LineSpec LineProofs DateModel RefModel RefSpec TreeModel TreeSpec TreeProofs SemModel GramModel GramSpec
  PegModel PegSpec PegSpec2 PegSpec3 PegSpec4 PegSpec5 SemSpec StructModel StructSpec StructProofs StructProofs3 StructProofs4 LayoutSpec LayoutProofs LayoutProofs2 LayoutProofs3 BodySpec BodyProofs BodyProofs2 BodyProofs3 LawSpec.
Local Open Scope Z_scope.

(** * Block by block *)

Definition bloop (b : block_parser) (q : Z) (ls : list line) := block_by_block_loop b (g_items (quote_level_loop true q ls)) (g_end (quote_level_loop true q ls)).
Definition stays (b : block_parser) (i : pystr) (l : line) : Prop := forall j, bp_extract b l = Some j -> bp_is_next b i j = Ok false.

Lemma bloop_stays b i : forall g q rest cur, balanced q (g ++ rest) -> cur <> [] -> outside (stays b i) q g ->
  bloop b q (g ++ rest) cur i = bloop b (q + open_after g) rest (cur ++ g) i.
Proof.
  induction g as [|l g IH]; intros q rest cur B N O.
  - change (open_after []) with 0. cbn [app]. now rewrite Z.add_0_r, app_nil_r.
  - inversion O as [|? ? ? P O']; subst. cbn [app] in *. inversion B as [|? ? ? N' B']; subst.
    replace (q + open_after (l :: g)) with (q + open_after [l] + open_after g) by (change (l :: g) with ([l] ++ g); rewrite open_after_app; lia).
    change (l :: g) with ([l] ++ g). rewrite app_assoc. rewrite <- (IH _ _ (cur ++ [l])); [|exact B'|destruct cur; discriminate|exact O'].
    unfold bloop at 1. rewrite (balanced_loop _ _ _ B). cbn [g_items g_end block_by_block_loop]. fold (bloop b (q + open_after [l]) (g ++ rest)).
    destruct cur as [|x cur]; [now destruct N|]. destruct (Z.eqb_spec q 0) as [->|Q]; [|reflexivity].
    destruct (bp_extract b l) as [j|] eqn:E; [|reflexivity]. rewrite (P eq_refl j E). reflexivity.
Qed.
Lemma bloop_first b i l ls : balanced 0 (l :: ls) -> bloop b 0 (l :: ls) [] i = bloop b (open_after [l]) ls [l] i.
Proof. intros B. unfold bloop at 1. rewrite (balanced_loop _ _ _ B). rewrite Z.add_0_l. reflexivity. Qed.
Lemma bloop_end b cur i : bloop b 0 [] cur i = (c <- bp_parse b cur ;; Ok [c]).
Proof. reflexivity. Qed.
Lemma bloop_next b i j l ls cur c : balanced 0 (l :: ls) -> cur <> [] -> bp_extract b l = Some j -> bp_is_next b i j = Ok true -> bp_parse b cur = Ok c ->
  bloop b 0 (l :: ls) cur i = (r <- bloop b (open_after [l]) ls [l] j ;; Ok (c :: r)).
Proof.
  intros B N E X P. unfold bloop at 1. rewrite (balanced_loop _ _ _ B), Z.add_0_l. cbn [g_items g_end block_by_block_loop]. change (0 =? 0) with true.
  destruct cur; [now destruct N|]. rewrite E, X. cbn [bind]. now rewrite P.
Qed.

(* layouts of blocks one after the other *)
Inductive chain (b : block_parser) : pystr -> list line -> list child -> Prop :=
| chain_last i l ls c : bp_parse b (l :: ls) = Ok c -> bp_extract b l = Some i -> balanced 0 (l :: ls) -> outside (stays b i) (open_after [l]) ls -> chain b i (l :: ls) [c]
| chain_more i j l ls rest c cs : bp_parse b (l :: ls) = Ok c -> bp_extract b l = Some i -> balanced 0 (l :: ls) -> outside (stays b i) (open_after [l]) ls ->
    bp_is_next b i j = Ok true -> chain b j rest cs -> chain b i ((l :: ls) ++ rest) (c :: cs).
Lemma chain_shape b i ls cs : chain b i ls cs -> balanced 0 ls /\ exists l t, ls = l :: t /\ bp_extract b l = Some i.
Proof.
  induction 1 as [i l ls c P E B O|i j l ls rest c cs P E B O X C [IB _]]; [eauto|]. split; [now apply balanced_join|]. exists l, (ls ++ rest). auto.
Qed.
Lemma chain_parsed b i ls cs : chain b i ls cs -> forall l t, ls = l :: t -> bloop b (open_after [l]) t [l] i = Ok cs.
Proof.
  assert (T : forall l ls, balanced 0 (l :: ls) -> open_after [l] + open_after ls = 0).
  { intros l0 ls0 B. apply balanced_level in B. change (l0 :: ls0) with ([l0] ++ ls0) in B. rewrite open_after_app in B. lia. }
  induction 1 as [i l ls c P E B O|i j l ls rest c cs P E B O X C IH]; intros l' t [= <- <-].
  - inversion B as [|? ? ? N B']; subst. rewrite Z.add_0_l in B'. pose proof (bloop_stays b i ls (open_after [l]) [] [l]) as S. rewrite app_nil_r in S. rewrite S; [|exact B'|discriminate|exact O].
    rewrite (T _ _ B), bloop_end. cbn [app]. now rewrite P.
  - destruct (chain_shape _ _ _ _ C) as [BR (l' & t & -> & E')].
    pose proof (balanced_join _ _ _ B BR) as BB. cbn [app] in BB. inversion BB as [|? ? ? N B']; subst. rewrite Z.add_0_l in B'.
    rewrite bloop_stays; [|exact B'|discriminate|exact O]. rewrite (T _ _ B). cbn [app].
    rewrite (bloop_next _ _ j _ _ _ c); [|exact BR|discriminate|exact E'|exact X|exact P]. now rewrite (IH _ _ eq_refl).
Qed.
Lemma chain_blocks b i ls cs : chain b i ls cs -> do_parse_block_by_block b i ls = Ok cs.
Proof.
  intros C. destruct (chain_shape _ _ _ _ C) as [B (l & t & -> & _)]. unfold do_parse_block_by_block, iterate_with_quote_level.
  fold (bloop b 0 (l :: t)). rewrite bloop_first by exact B. exact (chain_parsed _ _ _ _ C _ _ eq_refl).
Qed.

(** * Elements *)

Lemma item_headed k first ls e i : layout false k first ls e -> s_identifier e = Some i -> exists l t, ls = l :: t /\ begins_with (header k i) l.
Proof.
  intros L E. assert (H : forall i' l0 l1, header_of k first i' l0 l1 -> i' = Some i -> begins_with (header k i) l0).
  { intros i' l0 l1 (_ & _ & H) ->. destruct H as [_ H]. now exists (l_content l1). }
  destruct L as [k first i' l0 l1 ls t HO|k first i' l0 l1 ls more rest t ck cf es w HO|first i' l0 l1 ls more rest t c bs w HO]; cbn [s_identifier] in E; eauto.
Qed.
Lemma same_stays p subs k first i l : class p subs k first -> item_id k first i -> same_item k first i l -> stays (sae_block p subs) i l.
Proof.
  intros C I S j E. pose proof (class_known _ _ _ _ C) as (_ & EK & _). cbn [bp_extract bp_is_next sae_block] in *. rewrite EK.
  destruct (quiet_extract p subs k first i (l_indent l) l j C I) as [[D1 D2]|X]; [|exact E| |exact X].
  - intros j' J B. right. exact (S j' J B).
  - exfalso. destruct (l_indent l) as [s|s| |s m x]; try discriminate D1; unfold f_ltb in D1; cbn in D1; destruct s; try discriminate D1;
      rewrite ?Z.compare_refl, ?Pos.compare_refl, ?Pos.compare_cont_refl in D1; try discriminate D1.
Qed.
Lemma items_chain p subs k first i ls es : class p subs k first -> items_layout k first i ls es -> chain (sae_block p subs) i ls (map ChSae es).
Proof.
  intros C. pose proof (class_known _ _ _ _ C) as (_ & EK & _).
  assert (P : forall l ls e i, item_id k first i -> layout false k first (l :: ls) e -> s_identifier e = Some i ->
    bp_parse (sae_block p subs) (l :: ls) = Ok (ChSae e) /\ bp_extract (sae_block p subs) l = Some i /\ balanced 0 (l :: ls)).
  { intros l ls' e i' I L E. cbn [bp_parse bp_extract sae_block]. destruct (proj1 (layout_parsed false) _ _ _ _ L _ _ C) as [X _]. rewrite X. split; [reflexivity|].
    split; [|exact (layout_balanced _ _ _ _ _ L)]. destruct (item_headed _ _ _ _ _ L E) as (? & ? & [= <- <-] & B). exact (extract_item _ _ _ _ _ _ C I B). }
  assert (O : forall i q ls, item_id k first i -> outside (same_item k first i) q ls -> outside (stays (sae_block p subs) i) q ls).
  { intros i' q ls' I. apply outside_impl. intros l. now apply same_stays. }
  induction 1 as [i l ls e I L E Q|i j l ls rest e es I L E Q X _ IH].
  - destruct (P _ _ _ _ I L E) as (P1 & P2 & P3). cbn [map]. apply chain_last; auto.
  - destruct (P _ _ _ _ I L E) as (P1 & P2 & P3). cbn [map]. apply (chain_more _ _ j); auto. cbn [bp_is_next sae_block]. rewrite EK. now apply next_ok.
Qed.

(** * Articles *)

Lemma articles_chain i ls l : articles_layout i ls l -> chain article_block i ls (map ChArticle l).
Proof.
  assert (P : forall l ls a, article_layout false (l :: ls) a -> Forall one_line (l :: ls) ->
    bp_parse article_block (l :: ls) = Ok (ChArticle a) /\ bp_extract article_block l = Some (a_identifier a)).
  { intros l' ls' a L O. cbn [bp_parse bp_extract article_block]. rewrite (article_parsed _ _ _ L). split; [reflexivity|].
    apply article_extract_spec; [exact (Forall_inv O)|]. inversion L as [i' sp l0 l1 t ls0 title rest blanks body ps A S E]; subst. split; [exact A|]. exists sp, t. auto. }
  assert (O : forall i ls, Forall one_line ls -> forall q, outside (same_article i) q ls -> outside (stays article_block i) q ls).
  { intros i' ls' F. induction F as [|x t X _ IH]; intros q O; [constructor|]. inversion O as [|? ? ? Y O']; subst. constructor; [|auto].
    intros Q j E. cbn [bp_extract bp_is_next article_block] in *. apply article_extract_spec in E; [|exact X].
    destruct (Y Q j E) as (b & n & l1 & c & m & k & L1 & L2 & -> & -> & N). destruct (article_next_spec b n l1 c m k L1 L2) as (r & -> & R). f_equal. destruct r; [|reflexivity]. exfalso. apply N, R. reflexivity. }
  induction 1 as [l ls a L B F Q|l ls rest a j l2 L B F Q (b & n & l1 & c & m & k & L1 & L2 & E1 & -> & S) _ IH]; destruct (P _ _ _ L F) as [P1 P2]; cbn [map].
  - apply chain_last; auto. apply O; [exact (Forall_inv_tail F)|exact Q].
  - apply (chain_more _ _ (article_id c m k)); auto; [apply O; [exact (Forall_inv_tail F)|exact Q]|]. cbn [bp_is_next article_block]. rewrite E1.
    destruct (article_next_spec b n l1 c m k L1 L2) as (r & -> & R). f_equal. now apply R.
Qed.

(** * Containers *)

Lemma digit_chr c : (48 <= c <= 57)%N -> isdigit_chr c = true.
Proof. intros H. unfold isdigit_chr. replace (c <? 128)%N with true by lia. lia. Qed.
Lemma small_chr c : small_letter c -> isdigit_chr c = false.
Proof. unfold small_letter. intros H. unfold isdigit_chr. replace (c <? 128)%N with true by lia. lia. Qed.
Lemma digit_start i n l : numbered i n l -> exists c t, i = c :: t /\ isdigit_chr c = true.
Proof.
  assert (D : forall d u, ascii_digits d -> d <> [] -> exists c t, d ++ u = c :: t /\ isdigit_chr c = true).
  { intros [|c d] u A N; [contradiction|]. exists c, (d ++ u). split; [reflexivity|]. apply digit_chr. exact (Forall_inv A). }
  intros [d A N|d c A N _|d c A N _]; [|now apply D|now apply D]. destruct (D d [] A N) as (c & t & E & H). rewrite app_nil_r in E. eauto.
Qed.
Lemma starts_digit_part p i c t : starts_at p i -> i = c :: t -> is_none p = false /\ RefModel.starts_with_digit p = Ok (isdigit_chr c) /\
  (match p with RNone => Err AssertionError | RId i => Ok i | RRange a _ => Ok a end) = Ok i.
Proof. intros [->|(j & ->)] ->; repeat split. Qed.
Lemma starts_part p i : starts_at p i -> is_none p = false /\ (match p with RNone => Err AssertionError | RId i => Ok i | RRange a _ => Ok a end) = Ok i.
Proof. intros [->|(j & ->)]; repeat split. Qed.
Lemma place_class r k first i : place_of r k first i -> exists p subs, class p subs k first /\ get_parser_and_id r = Ok (sae_block p subs, i).
Proof.
  intros [act a p j S I|act a b p j S I|act a b p j S I|act a b c p q x S Q X|act a b c p j S I]; unfold get_parser_and_id, last_component_with_type; cbn [r_subpoint r_point r_paragraph r_article is_none negb].
  - destruct (starts_part _ _ S) as [-> E]. cbn [negb bind]. rewrite E. exists paragraph_conf, paragraph_subs. split; [constructor|reflexivity].
  - assert (H : exists c t, j = c :: t /\ isdigit_chr c = false).
    { inversion I as [|? ? ? ? ? []|k' q c K L E1 E2|? ? ? K D]; subst; try discriminate.
      - apply (app_inj_tail q []) in E2 as [-> _]. exists c, []. split; [reflexivity|now apply small_chr].
      - destruct D as [-> | ->]; (do 2 eexists; split; [reflexivity|vm_compute; reflexivity]). }
    destruct H as (c & t & E & D). destruct (starts_digit_part _ _ _ _ S E) as (-> & -> & X). cbn [negb bind]. rewrite D, X. exists alphabetic_point_conf, alphabetic_point_subs. split; [constructor|reflexivity].
  - assert (H : exists c t, j = c :: t /\ isdigit_chr c = true).
    { inversion I as [|? ? ? n l K N| |]; subst; try discriminate; [exact (digit_start _ _ _ N)|destruct H; discriminate|destruct H; discriminate]. }
    destruct H as (c & t & E & D). destruct (starts_digit_part _ _ _ _ S E) as (-> & -> & X). cbn [negb bind]. rewrite D, X. exists numeric_point_conf, numeric_point_subs. split; [constructor|reflexivity].
  - assert (H : exists c t, q ++ [x] = c :: t /\ isdigit_chr c = false).
    { destruct Q as [|y q C _]; [exists x, []|exists y, (q ++ [x])]; (split; [reflexivity|now apply small_chr]). }
    destruct H as (d & t & E & D). destruct (starts_digit_part _ _ _ _ S E) as (-> & -> & Y). cbn [negb bind]. rewrite D, Y. exists (alphabetic_subpoint_conf q), no_subs. split; [now constructor|].
    cbn [bind]. destruct q as [|y q]; [reflexivity|]. replace (match (y :: q) ++ [x] with [_] => [] | _ => drop_last ((y :: q) ++ [x]) end) with (y :: q); [reflexivity|].
    rewrite drop_last_snoc. cbn [app]. destruct (q ++ [x]) as [|z w] eqn:Z'; [now destruct q|reflexivity].
  - assert (H : exists d t, j = d :: t /\ isdigit_chr d = true).
    { inversion I as [|? ? ? n l K N| |]; subst; try discriminate; [exact (digit_start _ _ _ N)|destruct H; discriminate|destruct H; discriminate]. }
    destruct H as (d & t & E & D). destruct (starts_digit_part _ _ _ _ S E) as (-> & -> & X). cbn [negb bind]. rewrite D, X. exists numeric_subpoint_conf, no_subs. split; [constructor|reflexivity].
Qed.

Lemma chain_some b i ls cs : chain b i ls cs -> cs <> [].
Proof. intros []; discriminate. Qed.
Lemma container_articles l intro wrap : l <> [] ->
  new_sae KBlockAmendmentContainer None None intro (Some (map ChArticle l)) wrap NO_META = Ok (mk_sae KBlockAmendmentContainer None None intro (Some (map ChArticle l)) wrap NO_META).
Proof.
  intros N. apply new_sae_ok. split; [reflexivity|]. constructor; cbn [s_text s_children s_kind s_intro s_wrap_up].
  - contradiction.
  - destruct l; [contradiction|discriminate].
  - contradiction.
  - intros cs' c [= <-] H. apply in_map_iff in H as (a & <- & _); constructor.
Qed.
Lemma container_items es intro wrap : es <> [] -> (forall e, In e es -> s_kind e <> KBlockAmendmentContainer) ->
  new_sae KBlockAmendmentContainer None None intro (Some (map ChSae es)) wrap NO_META = Ok (mk_sae KBlockAmendmentContainer None None intro (Some (map ChSae es)) wrap NO_META).
Proof.
  intros N K. apply new_sae_ok. split; [reflexivity|]. constructor; cbn [s_text s_children s_kind s_intro s_wrap_up].
  - contradiction.
  - destruct es; [contradiction|discriminate].
  - contradiction.
  - intros cs' c [= <-] H. apply in_map_iff in H as (a & <- & I). pose proof (K a I). cbn [TreeModel.class_of]. now constructor.
Qed.
Lemma layout_kind pi k first ls s : layout pi k first ls s -> s_kind s = k.
Proof. intros []; reflexivity. Qed.
Lemma items_kinds k first i ls es : items_layout k first i ls es -> es <> [] /\ forall e, In e es -> s_kind e = k.
Proof.
  induction 1 as [i l ls e _ L _ _|i j l ls rest e es _ L _ _ _ _ [_ IH]]; (split; [discriminate|]); intros e' [<-|I]; try exact (layout_kind _ _ _ _ _ L); [destruct I|auto].
Qed.
Lemma put_in_parsed r ls cs ctx ctx' : put_in r ls cs ->
  parse_block_amendment r ctx ctx' ls = Ok (mk_sae KBlockAmendmentContainer None None ctx (Some cs) ctx' NO_META).
Proof.
  intros [act p i ls' l S A|r' k first i ls' es P I|r' lead previous body cs' C B O BL N].
  - unfold parse_block_amendment, get_parser_and_id, last_component_with_type. cbn [r_subpoint r_point r_paragraph r_article is_none negb]. destruct (starts_part _ _ S) as [-> E]. cbn [negb bind]. rewrite E. cbn [bind].
    rewrite (chain_blocks _ _ _ _ (articles_chain _ _ _ A)). cbn [bind]. rewrite container_articles; [reflexivity|]. now destruct A.
  - destruct (place_class _ _ _ _ P) as (c & subs & C & E). unfold parse_block_amendment. rewrite E. cbn [bind]. rewrite (chain_blocks _ _ _ _ (items_chain _ _ _ _ _ _ _ C I)). cbn [bind].
    destruct (items_kinds _ _ _ _ _ I) as [N K]. rewrite container_items; [reflexivity|exact N|]. intros e X Y. rewrite (K e X) in Y. subst k. inversion C.
  - now rewrite (block_parsed _ _ _ _ _ _ _ C B O BL N).
Qed.
