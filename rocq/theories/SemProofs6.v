From Coq Require Import Lia.
From Coq Require Import ZifyBool ZifyNat ZifyN.
From Coq Require Import Permutation Sorted.
From Verif Require Import PyBase PyBaseFacts NumSpec IdModel IdSpec LineModel DateModel RefModel RefSpec
  TreeModel TreeSpec TreeProofs TreeProofs2 TreeProofs3 SemModel SemSpec SemProofs SemProofs2 SemProofs3 SemProofs4 SemProofs5.
Local Open Scope Z_scope.

(** * Each element is read once, by its own text *)

Lemma readings_leaf e p q : can_be_semantic_parsed (s_kind e) = true -> s_text e = None -> s_children e = None ->
  readings e p q = [mk_reading (s_intro e) p []].
Proof. destruct e as [k i t n cs w m]; destruct k; cbn; try discriminate; intros _ -> ->; reflexivity. Qed.

Lemma readings_own e : built_sae e -> forall p q, map rd_text (readings e p q) = map own_text (carriers e).
Proof.
  induction e as [e IH] using sae_induct. intros B p q. destruct (built_local e B) as [W Bc].
  destruct (can_be_semantic_parsed (s_kind e)) eqn:K.
  2:{ now rewrite readings_container, carriers_container by exact K. }
  rewrite carriers_eq by exact K. cbn [map]. unfold own_text at 1. destruct (s_text e) as [t|] eqn:T.
  - rewrite (readings_text e p q t) by assumption. destruct (wf_text _ W) as (_ & -> & _); [congruence|]. reflexivity.
  - destruct (s_children e) as [cs|] eqn:C.
    + rewrite (readings_children e p q cs) by assumption. cbn [map rd_text]. f_equal.
      generalize (inner_prefix p (s_intro e)) (inner_postfix q (s_wrap_up e)). intros p' q'.
      assert (IH' : forall x, In (ChSae x) cs -> forall p q, map rd_text (readings x p q) = map own_text (carriers x)).
      { intros x Hx. eapply IH; eauto. specialize (Bc cs (ChSae x) eq_refl Hx). now inversion Bc. }
      clear - IH'. induction cs as [|c cs IHc]; [reflexivity|]. unfold child_readings, child_carriers in *. cbn [flat_map].
      rewrite !map_app. rewrite IHc by (intros x Hx; apply IH'; now right). f_equal. destruct c; try reflexivity. apply IH'. now left.
    + rewrite readings_leaf by assumption. reflexivity.
Qed.
Lemma own_text_bare e : map own_text (carriers (bare e)) = map own_text (carriers e).
Proof.
  induction e as [e IH] using sae_induct. destruct (can_be_semantic_parsed (s_kind e)) eqn:K.
  2:{ now rewrite bare_container. }
  rewrite (carriers_eq (bare e)) by (rewrite bare_kind; exact K). rewrite (carriers_eq e) by exact K.
  rewrite bare_eq by exact K. cbn [map s_children]. f_equal. destruct (s_children e) as [l|]; [|reflexivity].
  assert (IH' : forall x, In (ChSae x) l -> map own_text (carriers (bare x)) = map own_text (carriers x)) by eauto.
  clear -IH'. induction l as [|c l IHl]; [reflexivity|]. unfold child_carriers in *. cbn [map flat_map]. rewrite !map_app.
  rewrite IHl by (intros x Hx; apply IH'; now right). f_equal. destruct c; cbn [bare_ch]; try reflexivity. apply IH'. now left.
Qed.
Lemma own_text_list ps ps' : map bare ps' = map bare ps ->
  map own_text (flat_map carriers ps') = map own_text (flat_map carriers ps).
Proof.
  revert ps'. induction ps as [|p ps IH]; intros [|p' ps'] H; try discriminate; [reflexivity|]. cbn [map flat_map] in *.
  injection H as H1 H2. rewrite !map_app, (IH _ H2). f_equal. now rewrite <- own_text_bare, H1, own_text_bare.
Qed.
Lemma own_text_act a a' : bare_act a' = bare_act a -> map own_text (carriers_of a') = map own_text (carriers_of a).
Proof.
  intros H. unfold bare_act in H. injection H as _ _ _ _ H. unfold carriers_of, act_articles. revert H.
  generalize (act_children a), (act_children a'). induction l as [|c l IH]; intros [|c' l'] H; try discriminate; [reflexivity|].
  cbn [map] in H. injection H as H1 H2. destruct c as [e|x], c' as [e'|x']; try discriminate; cbn [flat_map app]; [auto|].
  rewrite !map_app, (IH _ H2). f_equal. apply own_text_list. cbn [bare_child] in H1. unfold bare_article in H1. congruence.
Qed.
Lemma readings_of_own a : built_act a -> map rd_text (readings_of a) = map own_text (carriers_of a).
Proof.
  unfold built_act, readings_of, carriers_of, act_articles. induction (act_children a) as [|c l IH]; intros B; [reflexivity|].
  destruct c as [e|x]; cbn [flat_map app].
  - apply IH. intros y Hy. apply B. now right.
  - rewrite !map_app, IH by (intros y Hy; apply B; now right). f_equal.
    destruct (B x (or_introl eq_refl)) as [Bx _]. apply built_article_local in Bx as [_ Bx].
    induction (a_paragraphs x) as [|p ps IHp]; [reflexivity|]. cbn [flat_map]. rewrite !map_app, IHp by (intros y Hy; apply Bx; now right).
    f_equal. apply readings_own. apply Bx. now left.
Qed.

Lemma stored_all_each an known rds ms after : stored_all an known rds ms after ->
  Forall2 (fun rd m => exists known, stored an known rd m) rds ms.
Proof. induction 1; constructor; eauto. Qed.

Lemma act_each_stored an a a' : built_act a -> unparsed_act a -> add_semantics_to_act an a = Ok a' ->
  Forall2 (fun rd e => rd_text rd = own_text e /\ exists known, stored an known rd (s_meta e)) (readings_of a) (carriers_of a').
Proof.
  intros B U H. destruct (act_stored an a a' U H) as (known & S). apply stored_all_each in S.
  pose proof (own_text_act _ _ (act_keeps _ _ _ H)) as E. rewrite <- (readings_of_own a B) in E.
  revert S E. generalize (readings_of a), (carriers_of a'). induction l as [|rd rds IH]; intros [|e es] S E; try discriminate; [constructor| ].
  cbn [map] in *. injection E as E1 E2. inversion S; subst. constructor; auto.
Qed.

(** * Positions *)

Lemma cut_ends_length js s r : cut_ends js s r -> (List.length r <= List.length s)%nat.
Proof. induction 1 as [s|j js s r _ IH|j js s r _ _ IH]; [lia| |exact IH]. rewrite app_length. lia. Qed.
Lemma item_text_length s q t : item_text s q t -> (List.length t <= List.length s + 1)%nat.
Proof.
  intros (u & C & H). apply cut_ends_length in C. destruct H as [[_ ->]|[(_ & _ & ->)|(_ & _ & _ & ->)]]; try lia.
  rewrite app_length. cbn. lia.
Qed.
Definition sane_spans (an : analyzer) : Prop :=
  forall s a r, an s = Some a -> In r (an_references a) -> or_start r < or_end r.
Lemma kept_bounds m p len l k : kept_references m p len l k -> (forall r, In r l -> or_start r < or_end r) ->
  forall r, In r k -> 0 <= or_start r < or_end r /\ or_end r <= Z.of_nat len.
Proof.
  induction 1 as [|r l k E _ IH|r l k E _ IH]; intros S x Hx.
  - destruct Hx.
  - destruct Hx as [<-|Hx]; [|apply IH; auto; intros y Hy; apply S; now right].
    unfold ends_inside in E. specialize (S r (or_introl eq_refl)). cbn. lia.
  - apply IH; auto. intros y Hy. apply S. now right.
Qed.
Lemma stored_positions an known rd m refs : sane_spans an -> stored an known rd m -> m_outgoing m = Some refs ->
  StronglySorted position_le refs /\ forall r, In r refs -> exists s t, rd_text rd = Some s /\ item_text s (rd_after rd) t /\
    0 <= or_start r < or_end r /\ or_end r <= Z.of_nat (List.length t).
Proof.
  intros SP S O. unfold stored in S. destruct (rd_text rd) as [s|] eqn:T.
  2:{ subst m. injection O as <-. split; [constructor|intros r []]. }
  destruct S as (t & IT & N & Y). cbv zeta in *.
  assert (D : worth_reading (rd_before rd ++ t ++ rd_after rd) \/ ~ worth_reading (rd_before rd ++ t ++ rd_after rd)).
  { rewrite worth_spec. destruct (10000 <? _), (existsb _ _); intuition congruence. }
  destruct D as [D|D].
  - destruct (Y D) as (a & f & found & k & A & _ & K & P & SS & ->). injection O as <-. split; [exact SS|].
    intros r Hr. exists s, t. split; [reflexivity|]. split; [exact IT|]. eapply kept_bounds; [exact K| |].
    + intros x Hx. eapply SP; eauto.
    + eapply Permutation_in; [symmetry; exact P|exact Hr].
  - rewrite (N D) in O. injection O as <-. split; [constructor|intros r []].
Qed.
Lemma Forall2_in_r {A B} (R : A -> B -> Prop) l k y : Forall2 R l k -> In y k -> exists x, In x l /\ R x y.
Proof. induction 1 as [|a b l k H _ IH]; intros []; [subst; exists a; cbn; auto|]. destruct IH as (x & Hx & Rx); auto. exists x. cbn. auto. Qed.

Lemma act_positions an a a' e refs : sane_spans an -> built_act a -> unparsed_act a -> add_semantics_to_act an a = Ok a' ->
  In e (carriers_of a') -> m_outgoing (s_meta e) = Some refs ->
  StronglySorted position_le refs /\
  forall r, In r refs -> exists s, own_text e = Some s /\ 0 <= or_start r < or_end r /\ or_end r <= Z.of_nat (List.length s) + 1.
Proof.
  intros SP B F H He O. destruct (Forall2_in_r _ _ _ _ (act_each_stored an a a' B F H) He) as (rd & _ & E & known & S).
  destruct (stored_positions an known rd _ refs SP S O) as [SS P]. split; [exact SS|]. intros r Hr.
  destruct (P r Hr) as (s & t & T & IT & P1 & P2). exists s. split; [congruence|]. split; [exact P1|].
  apply item_text_length in IT. lia.
Qed.

(** * Success *)

Lemma outgoing_lt_total a b : or_end a <> or_end b -> exists lt, outgoing_lt a b = Ok lt.
Proof.
  intros N. unfold outgoing_lt. destruct (negb _); [eauto|]. destruct (or_end a =? or_end b) eqn:E; [lia|]. cbn [negb]. eauto.
Qed.
Lemma insert_total x l : ~ In (or_end x) (map or_end l) -> exists r, insert_outgoing x l = Ok r.
Proof.
  induction l as [|y l IH]; intros N; [eexists; reflexivity|]. cbn [insert_outgoing]. cbn in N.
  destruct (outgoing_lt_total y x) as (lt & ->); [tauto|]. cbn [bind]. destruct lt; [|eauto].
  destruct IH as (r & ->); [tauto|]. cbn [bind]. eauto.
Qed.
Lemma sort_total l : NoDup (map or_end l) -> exists r, sort_outgoing l = Ok r.
Proof.
  induction l as [|x l IH]; intros N; [eexists; reflexivity|]. cbn [map] in N. inversion N as [|? ? N1 N2]; subst.
  destruct (IH N2) as (r & E). cbn [sort_outgoing]. rewrite E. cbn [bind]. apply insert_total.
  apply sort_outgoing_ok in E as [P _]. intros H. apply N1. eapply Permutation_in; [|exact H].
  symmetry. now apply Permutation_map.
Qed.
Lemma kept_ends m p len l k : kept_references m p len l k -> NoDup (map or_end l) -> NoDup (map or_end k).
Proof.
  intros K. assert (S : forall z, In z (map or_end k) -> In (z + Z.of_nat p) (map or_end l)).
  { induction K as [|r l k E _ IH|r l k E _ IH]; intros z Hz; cbn [map In] in *; [exact Hz| |auto].
    destruct Hz as [<-|Hz]; [left; cbn; lia|auto]. }
  induction K as [|r l k E K IH|r l k E K IH]; intros N; cbn [map] in *.
  - constructor.
  - inversion N as [|? ? N1 N2]; subst.
    assert (S' : forall z, In z (map or_end k) -> In (z + Z.of_nat p) (map or_end l)).
    { clear - K. induction K as [|r l k E _ IH|r l k E _ IH]; intros z Hz; cbn [map In] in *; [exact Hz| |auto].
      destruct Hz as [<-|Hz]; [left; cbn; lia|auto]. }
    constructor; [|auto]. intros Hz. apply N1. apply S' in Hz. cbn in Hz. now rewrite Z.sub_add in Hz.
  - inversion N as [|? ? N1 N2]; subst. apply IH; auto.
    clear - K. induction K as [|r l k E _ IH|r l k E _ IH]; intros z Hz; cbn [map In] in *; [exact Hz| |auto].
    destruct Hz as [<-|Hz]; [left; cbn; lia|auto].
Qed.

Lemma parse_text_total an s p q st : readable an (mk_reading (Some s) p q) -> exists m st', parse_text an s p q st = Ok (m, st').
Proof.
  intros (t & T & R). cbn [rd_text rd_before rd_after] in *. unfold parse_text. apply fix_end_spec in T. rewrite T. cbn [bind].
  destruct (10000 <? _) eqn:L; [eauto|]. destruct (existsb _ INTERESTING_SUBSTRINGS) eqn:X; cbn [negb]; [|eauto].
  destruct R as (a & A & N); [apply worth_spec; auto|]. unfold analyze. rewrite A. cbn [bind].
  set (st1 := match an_abbreviations a with [] => st | l => _ end). unfold convert_parsed_references.
  assert (EL : Z.of_nat (List.length (p ++ t ++ q)) - Z.of_nat (List.length q) = Z.of_nat (List.length p) + Z.of_nat (List.length t)).
  { rewrite !app_length. lia. }
  rewrite EL. destruct (kept_spec (abbreviations_map (st_abbreviations st1)) (List.length p) (List.length t) (an_references a)) as (found & K & E).
  rewrite E. destruct (sort_total found (kept_ends _ _ _ _ _ K N)) as (r & ->). cbn [bind]. eauto.
Qed.

Lemma add_sae_total an e : built_sae e -> Forall complete (carriers e) -> forall p q st, st_changed st = true \/ unparsed e ->
  Forall (readable an) (readings e p q) -> exists e' st', add_semantics_to_sae an e p q st = Ok (e', st').
Proof.
  induction e as [e IH] using sae_induct. intros B C p q st F R. destruct (built_local e B) as [W Bc].
  rewrite add_sae_eq. destruct (can_be_semantic_parsed (s_kind e)) eqn:K.
  2:{ rewrite existing_eq, K. cbn [negb bind]. destruct (negb (st_changed st) && is_semantic_parsed e); eauto. }
  destruct st as [ab c]. cbn [st_changed] in F. rewrite (fresh_not_kept c e ab F K). cbn [negb]. unfold reparse.
  rewrite carriers_eq in C by exact K. apply Forall_cons_iff in C as [C1 C2].
  destruct (s_text e) as [t|] eqn:T.
  - rewrite (readings_text e p q t) in R by assumption. apply Forall_cons_iff in R as [R _].
    destruct (parse_text_total an t p q (mk_state ab c) R) as (m & st' & ->). cbn [bind].
    assert (N : exists e', new_sae (s_kind e) (s_identifier e) (Some t) (s_intro e) (s_children e) (s_wrap_up e) m = Ok e').
    { eexists. apply new_sae_ok. split; [reflexivity|]. destruct W as [W1 W2 W3 W4]. rewrite T in W1.
      constructor; cbn; auto. }
    destruct N as (e' & ->). cbn [bind]. eauto.
  - destruct (s_children e) as [cs|] eqn:Ec.
    2:{ destruct C1 as [C1|C1]; [now rewrite T in C1|now rewrite Ec in C1]. }
    rewrite (readings_children e p q cs) in R by assumption. apply Forall_cons_iff in R as [R1 R2].
    assert (O : exists m st1, match s_intro e with
                     | Some intro => parse_text an intro p [] (mk_state ab c)
                     | None => Ok (EMPTY_META, mk_state ab c) end = Ok (m, st1)).
    { destruct (s_intro e) as [n|]; [now apply parse_text_total|eauto]. }
    destruct O as (m & st1 & O). rewrite O. cbn [bind].
    assert (F1 : st_changed st1 = true \/ Forall (fun x => m_semantic (s_meta x) = None) (child_carriers cs)).
    { destruct F as [->|F].
      - left. destruct (s_intro e) as [n|]; [eapply parse_text_changed; eauto|injection O as <- <-; reflexivity].
      - right. unfold unparsed in F. rewrite carriers_eq, Ec in F by exact K. now apply Forall_cons_iff in F as [_ F]. }
    assert (A : exists cs' st', add_children an cs (inner_prefix p (s_intro e)) (inner_postfix q (s_wrap_up e)) st1 = Ok (cs', st') /\
                map class_of cs' = map class_of cs).
    { assert (IH' : forall x, In (ChSae x) cs -> Forall complete (carriers x) -> forall p q st, st_changed st = true \/ unparsed x ->
                  Forall (readable an) (readings x p q) -> exists e' st', add_semantics_to_sae an x p q st = Ok (e', st')).
      { intros x Hx. eapply IH; eauto. specialize (Bc cs (ChSae x) eq_refl Hx). now inversion Bc. }
      revert R2. generalize (inner_prefix p (s_intro e)) (inner_postfix q (s_wrap_up e)). intros p' q' R2.
      clear - IH' C2 F1 R2. revert st1 F1. induction cs as [|c cs IHc]; intros st1 F1; [exists [], st1; auto|].
      cbn [child_carriers child_readings flat_map] in *. fold (child_carriers cs) in *. fold (child_readings cs p' q') in *.
      apply Forall_app in C2 as [Ca Cb]. apply Forall_app in R2 as [Ra Rb]. rewrite Forall_app in F1.
      assert (IH2 : forall x, In (ChSae x) cs -> Forall complete (carriers x) -> forall p q st, st_changed st = true \/ unparsed x ->
                  Forall (readable an) (readings x p q) -> exists e' st', add_semantics_to_sae an x p q st = Ok (e', st'))
        by (intros x Hx; apply IH'; now right). specialize (IHc Cb IH2 Rb).
      destruct c as [s| | |]; cbn [add_children].
      2-4: destruct (IHc st1 ltac:(tauto)) as (cs' & st' & E & Ek); rewrite E; cbn [bind]; eexists _, st'; split; [reflexivity|]; cbn; now rewrite Ek.
      destruct (IH' s (or_introl eq_refl) Ca p' q' st1 ltac:(unfold unparsed; tauto) Ra) as (s' & st2 & E). rewrite E. cbn [bind].
      destruct (IHc st2) as (cs' & st' & E' & Ek).
      { destruct F1 as [F1|F1]; [left; eapply changed_stays; eauto|tauto]. }
      rewrite E'. cbn [bind]. eexists _, st'. split; [reflexivity|]. cbn. rewrite Ek. f_equal. f_equal.
      apply add_sae_keeps in E as [E _]. rewrite <- (bare_kind s'), E. apply bare_kind. }
    destruct A as (cs' & st' & A & Ek). rewrite A. cbn [bind].
    assert (N : exists e', new_sae (s_kind e) (s_identifier e) None (s_intro e) (Some cs') (s_wrap_up e) m = Ok e').
    { eexists. apply new_sae_ok. split; [reflexivity|].
      destruct (well_formed_same_classes e cs cs' W Ec Ek) as [W1 W2 W3 W4]. destruct e as [k i t n cs0 w m0]. cbn in *.
      subst t. constructor; cbn; auto. }
    destruct N as (e' & ->). cbn [bind]. eauto.
Qed.

Lemma add_paragraphs_total an ps : Forall built_sae ps -> Forall complete (flat_map carriers ps) ->
  Forall (readable an) (flat_map (fun p => readings p [] []) ps) -> forall st, st_changed st = true \/ unparsed_list ps ->
  exists ps' st', add_semantics_to_paragraphs an ps st = Ok (ps', st').
Proof.
  induction ps as [|p ps IH]; intros B C R st F; [eexists _, _; reflexivity|]. cbn [flat_map] in *.
  apply Forall_cons_iff in B as [B1 B2]. apply Forall_app in C as [C1 C2]. apply Forall_app in R as [R1 R2].
  unfold unparsed_list in F. cbn [flat_map] in F. rewrite Forall_app in F. cbn [add_semantics_to_paragraphs].
  destruct (add_sae_total an p B1 C1 [] [] st ltac:(unfold unparsed; tauto) R1) as (p' & st1 & E). rewrite E. cbn [bind].
  destruct (IH B2 C2 R2 st1) as (ps' & st' & E').
  { destruct F as [F|F]; [left; eapply changed_stays; eauto|right; apply F]. }
  rewrite E'. cbn [bind]. eauto.
Qed.
Lemma identifiers_bare ps ps' : map bare ps' = map bare ps -> map s_identifier ps' = map s_identifier ps.
Proof.
  revert ps'. induction ps as [|p ps IH]; intros [|p' ps'] H; try discriminate; [reflexivity|]. cbn [map] in *.
  injection H as H1 H2. rewrite (IH _ H2). f_equal. now rewrite <- (bare_identifier p'), H1, bare_identifier.
Qed.
Lemma article_identifiers i t ps ps' : map s_identifier ps' = map s_identifier ps ->
  article_well_formed (mk_article i t ps) -> article_well_formed (mk_article i t ps').
Proof.
  unfold article_well_formed. cbn [a_paragraphs]. intros E [(p & -> & H)|H].
  - left. destruct ps' as [|p' [|]]; try discriminate. cbn in E. injection E as E. exists p'. split; [reflexivity|congruence].
  - right. apply Forall_forall. intros p' Hp'. apply (in_map s_identifier) in Hp'. rewrite E in Hp'.
    apply in_map_iff in Hp' as (p & <- & Hp). rewrite Forall_forall in H. auto.
Qed.
Lemma act_total an a : built_act a -> unparsed_act a -> complete_act a -> Forall (readable an) (readings_of a) ->
  exists a', add_semantics_to_act an a = Ok a'.
Proof.
  intros B F C R. unfold add_semantics_to_act. destruct (act_is_semantic_parsed a); [eauto|].
  assert (G : exists cs st, add_semantics_to_children an (act_children a) START_STATE = Ok (cs, st)).
  { unfold built_act, unparsed_act, complete_act, readings_of, carriers_of, act_articles in *.
    assert (F' : st_changed START_STATE = true \/ Forall (fun x => m_semantic (s_meta x) = None)
                   (flat_map (fun x => flat_map carriers (a_paragraphs x)) (articles_in (act_children a)))) by (right; exact F).
    clear F. revert B F' C R. generalize START_STATE. induction (act_children a) as [|c l IH]; intros st B F C R; [eexists _, _; reflexivity|].
    assert (B2 : forall x, In (AArticle x) l -> built_article x /\ paragraphs_only x) by (intros x Hx; apply B; now right).
    destruct c as [e|x]; cbn [add_semantics_to_children].
    - destruct (IH st B2 F C R) as (cs & st' & ->). cbn [bind]. eauto.
    - cbn [flat_map app articles_in] in *. fold (articles_in l) in *. apply Forall_app in C as [C1 C2]. apply Forall_app in R as [R1 R2].
      rewrite Forall_app in F. destruct (B x (or_introl eq_refl)) as [Bx Px]. apply built_article_local in Bx as [Wx Bx].
      assert (A : exists x' st1, add_semantics_to_article an x st = Ok (x', st1)).
      { unfold add_semantics_to_article. destruct (negb (st_changed st) && article_is_semantic_parsed x) eqn:P.
        - apply andb_true_iff in P as [P1 P2]. destruct F as [F|[F _]]; [rewrite F in P1; discriminate|].
          destruct (unparsed_parsed_list _ F P2) as (_ & _ & ->). cbn [bind]. eauto.
        - destruct (add_paragraphs_total an (a_paragraphs x)) with (st := st) as (ps & st1 & E); auto.
          + now apply Forall_forall.
          + unfold unparsed_list. tauto.
          + rewrite E. cbn [bind]. assert (N : exists x', new_article (a_identifier x) (a_title x) ps = Ok x').
            { eexists. apply new_article_ok. split; [reflexivity|]. apply article_identifiers with (ps := a_paragraphs x).
              - apply identifiers_bare. eapply keeps_bare, add_paragraphs_keeps; eauto.
              - now destruct x. }
            destruct N as (x' & ->). cbn [bind]. eauto. }
      destruct A as (x' & st1 & A). rewrite A. cbn [bind]. destruct (IH st1 B2) as (cs & st' & ->); auto.
      { destruct F as [F|[_ F]]; [|tauto]. left.
        eapply add_article_stored; [left; exact F|exact A|exact F]. }
      cbn [bind]. eauto. }
  destruct G as (cs & st & ->). cbn [bind]. eauto.
Qed.
