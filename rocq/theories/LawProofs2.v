(* Written laws are read. *)
From Coq Require Import Lia Permutation Sorted.
From Verif Require Import PyBase PyBaseFacts NumModel NumSpec IdModel IdSpec LineModel LineSpec DateModel RefModel RefSpec TreeModel TreeSpec TreeProofs SemModel GramModel GramSpec
  PegModel PegSpec PegSpec2 PegSpec3 PegSpec4 PegSpec5 PegProofs17 PegProofs34 JointProofs2 PegProofs42 SemSpec SemProofs SemProofs2 SemProofs3 SemProofs4 SemProofs5 SemProofs6 SemProofs7
  TreeProofs2 FitSpec FitProofs FitProofs2 StructModel StructSpec LayoutSpec BodySpec BodyProofs2 LawSpec LawProofs.
Local Open Scope Z_scope.

(** * Paragraphs *)

Lemma quoted_type bs : bs <> [] -> children_type KParagraph (Some (map ChQuoted bs)) = Ok (Some TQuoted).
Proof.
  intros N. destruct bs as [|b bs]; [now destruct N|]. cbn [map children_type class_of].
  replace (forallb (fun c => class_eqb (class_of c) TQuoted) (map ChQuoted bs)) with true; [reflexivity|]. symmetry. apply forallb_forall.
  intros c I. apply in_map_iff in I as (l & <- & _). reflexivity.
Qed.
Lemma slice_inner {A} (o c : A) w : py_slice 1 (-1) (o :: w ++ [c]) = w.
Proof.
  unfold py_slice, norm_bound, slice_nat. cbn [length]. rewrite app_length. cbn [length]. replace (1 <? 0) with false by reflexivity. replace (-1 <? 0) with true by reflexivity.
  replace (Nat.min (Z.to_nat 1) (S (length w + 1))) with 1%nat by lia. replace (Z.to_nat (Z.max 0 (Z.of_nat (S (length w + 1)) + -1)) - 1)%nat with (length w) by lia.
  cbn [skipn]. rewrite firstn_app, Nat.sub_diag, firstn_all. cbn. apply app_nil_r.
Qed.
Lemma no_block semantics : (forall r new, ~ In (BlockAmendment r new) semantics) -> first_block_amendment semantics = None.
Proof.
  induction semantics as [|s l IH]; intros N; [reflexivity|]. destruct s; try (cbn; apply IH; intros r new I; apply (N r new); now right).
  exfalso. eapply N. now left.
Qed.

Lemma amending_block p q : well_formed p -> amending p q -> block_parse_paragraph grammar_analyzer p = Ok q.
Proof.
  intros W A. destruct A as [p N|i intro bs w L B|i intro actual bs w refs sems abbrs I L B Se N|i intro actual lines w ctx ctx' refs r new abbrs cs I L Bw P].
  - apply block_paragraph_total_other; [exact W|]. intros ls (cs & E & J). exact (N cs E ls J).
  - unfold block_parse_paragraph. cbn [s_kind s_children s_intro]. rewrite (quoted_type bs B). cbn [bind].
    destruct (Z.ltb_spec 10000 (Z.of_nat (length intro))); [reflexivity|lia].
  - unfold block_parse_paragraph. cbn [s_kind s_children s_intro s_wrap_up]. rewrite (quoted_type bs B). cbn [bind].
    destruct (Z.ltb_spec 10000 (Z.of_nat (length intro))) as [?|_]; [lia|]. pose proof (sentence_found _ _ _ _ Se) as F.
    destruct I as [[-> I]|[c I]]; [apply split_intro_none in I|apply split_intro_spec in I]; rewrite I; unfold analyze; rewrite F; cbn [bind an_semantic]; rewrite (no_block _ N); reflexivity.
  - unfold block_parse_paragraph. cbn [s_kind s_children s_intro s_wrap_up]. change [ChQuoted lines] with (map ChQuoted [lines]) at 1.
    rewrite quoted_type by discriminate. cbn [bind]. destruct (Z.ltb_spec 10000 (Z.of_nat (length intro))) as [?|_]; [lia|].
    pose proof (block_found _ _ _ _ Bw) as F. pose proof (put_in_parsed r lines cs ctx ctx' P) as Q.
    assert (G : forall c c', c = ctx -> c' = ctx' ->
      (a <- analyze grammar_analyzer actual ;;
       match first_block_amendment (an_semantic a) with
       | None => Ok (mk_sae KParagraph i None (Some intro) (Some [ChQuoted lines]) w NO_META)
       | Some position =>
           _ <- assert_ (Nat.eqb (length [ChQuoted lines]) 1) ;;
           ls <- quoted_block (mk_sae KParagraph i None (Some intro) (Some [ChQuoted lines]) w NO_META) 0 ;;
           match parse_block_amendment position c c' ls with
           | Ok b => new_sae KParagraph i None (Some actual) (Some [ChSae b]) (Some []) NO_META
           | Err e => if is_sub_article_parsing_error e then Ok (mk_sae KParagraph i None (Some intro) (Some [ChQuoted lines]) w NO_META) else Err e
           end
       end) = Ok (mk_sae KParagraph i None (Some actual) (Some [ChSae (mk_sae KBlockAmendmentContainer None None ctx (Some cs) ctx' NO_META)]) (Some []) NO_META)).
    { intros c c' -> ->. unfold analyze. rewrite F. cbn [bind an_semantic first_block_amendment]. change (assert_ _) with (Ok tt). change (quoted_block _ 0) with (Ok lines). cbn [bind]. rewrite Q. reflexivity. }
    destruct I as [I|intro context I|intro context o v c I].
    + apply split_intro_none in I. rewrite I. now apply G.
    + apply split_intro_spec in I. rewrite I. now apply G.
    + apply split_intro_spec in I. rewrite I, slice_inner. now apply G.
Qed.
Lemma amending_kept p q : amending p q -> s_identifier q = s_identifier p.
Proof. now intros []. Qed.

Lemma Forall2_in_impl {A B} (P Q : A -> B -> Prop) : forall l l', (forall x y, In x l -> P x y -> Q x y) -> Forall2 P l l' -> Forall2 Q l l'.
Proof. induction l as [|x l IH]; intros l' I F; inversion F; subst; constructor; [apply I; [now left|assumption]|]. apply IH; [|assumption]. intros u v J. apply I. now right. Qed.
Lemma amending_act_block a b : fresh_act a -> amending_act a b -> block_parse_act grammar_analyzer a = Ok b.
Proof.
  intros [B _ _ _] (E1 & E2 & E3 & E4 & F). unfold block_parse_act. 
  replace (mapM _ (act_children a)) with (Ok (act_children b)).
  - cbn [bind]. destruct a, b. cbn in *. subst. reflexivity.
  - symmetry. apply mapM_ok. revert F. apply Forall2_in_impl. intros [e|x] y I A; destruct y as [e'|y]; cbn in A; try contradiction.
    + now subst.
    + destruct A as (A1 & A2 & A3). destruct (B x I) as [Bx _]. apply built_article_local in Bx as [Wx Bx]. unfold block_parse_article.
      replace (mapM _ (a_paragraphs x)) with (Ok (a_paragraphs y)).
      * cbn [bind]. replace (new_article (a_identifier x) (a_title x) (a_paragraphs y)) with (Ok y); [reflexivity|]. symmetry. apply new_article_ok.
        split; [destruct y; cbn in *; congruence|]. destruct Wx as [(p & Ep & N)|N].
        -- left. rewrite Ep in A3. inversion A3 as [|? q ? ? Q R]; subst. inversion R; subst. exists q. split; [congruence|]. now rewrite (amending_kept _ _ Q).
        -- right. clear -A3 N. induction A3 as [|p q l l' Q R IH]; [constructor|]. apply Forall_cons_iff in N as [N1 N2]. constructor; [now rewrite (amending_kept _ _ Q)|auto].
      * symmetry. apply mapM_ok. revert A3. apply Forall2_in_impl. intros p q J. apply amending_block. exact (proj1 (built_local _ (Bx p J))).
Qed.

(** * Sentences *)

Lemma meaning_same l f g k : meaning l f -> meaning l g -> f k = g k.
Proof.
  intros F G. destruct (f k) as [v|] eqn:E.
  - apply F in E. apply G in E. now symmetry.
  - destruct (g k) as [v|] eqn:E'; [|reflexivity]. apply G in E'. apply F in E'. congruence.
Qed.
Lemma resolve_same f g r : (forall k, f k = g k) -> resolve_abbreviations r f = resolve_abbreviations r g.
Proof. intros E. unfold resolve_abbreviations, resolve_act. destruct (r_act r); [now rewrite E|reflexivity]. Qed.
Lemma any_same f g r : (forall k, f k = g k) -> any_resolve r f = any_resolve r g.
Proof.
  intros E. destruct r as [r|r]; cbn; [now rewrite (resolve_same f g r E)|]. unfold sref_resolve, resolve_act. destruct (sr_act r); [now rewrite E|reflexivity].
Qed.
Lemma sem_same f g s : (forall k, f k = g k) -> sem_resolve s f = sem_resolve s g.
Proof. intros E. destruct s; cbn [sem_resolve]; rewrite ?(any_same f g _ E), ?(resolve_same f g _ E); reflexivity. Qed.
Lemma kept_same f g n k refs x : (forall k, f k = g k) -> kept_references f n k refs x -> forall y, kept_references g n k refs y -> x = y.
Proof.
  intros E H. induction H as [|r l x I H IH|r l x I H IH]; intros y G; inversion G; subst; try contradiction; [reflexivity| |auto].
  unfold shift_reference. rewrite (resolve_same f g _ E). f_equal. auto.
Qed.
Lemma kept_ends f n k refs x : kept_references f n k refs x -> NoDup (map or_end refs) -> NoDup (map or_end x).
Proof.
  intros H D. assert (S : forall e, In e (map or_end x) -> In (e + Z.of_nat n) (map or_end refs)).
  { clear D. induction H as [|r l x I H IH|r l x I H IH]; intros e Q; [destruct Q| |right; auto]. destruct Q as [<-|Q]; [left; cbn; lia|right; auto]. }
  revert D S. induction H as [|r l x I H IH|r l x I H IH]; intros D S; [constructor| |].
  - cbn [map] in *. inversion D as [|? ? D1 D2]; subst. assert (S' : forall e, In e (map or_end x) -> In (e + Z.of_nat n) (map or_end l)).
    { clear -H. induction H as [|r l x I H IH|r l x I H IH]; intros e Q; [destruct Q| |right; auto]. destruct Q as [<-|Q]; [left; cbn; lia|right; auto]. }
    constructor; [|auto]. intros J. apply S' in J. apply D1. cbn in J. now replace (or_end r) with (or_end r - Z.of_nat n + Z.of_nat n) by lia.
  - inversion D as [|? ? D1 D2]; subst. apply IH; [exact D2|].
    clear -H. induction H as [|r l x I H IH|r l x I H IH]; intros e Q; [destruct Q| |right; auto]. destruct Q as [<-|Q]; [left; cbn; lia|right; auto].
Qed.
Lemma end_inj (l : list outgoing_reference) x y : NoDup (map or_end l) -> In x l -> In y l -> or_end x = or_end y -> x = y.
Proof.
  induction l as [|z l IH]; intros D I J E; [destruct I|]. cbn [map] in D. inversion D as [|? ? D1 D2]; subst.
  destruct I as [->|I], J as [->|J]; auto; exfalso; apply D1; [rewrite E|rewrite <- E]; now apply in_map.
Qed.
Lemma sorted_same l : forall l', NoDup (map or_end l) -> Permutation l l' -> StronglySorted position_le l -> StronglySorted position_le l' -> l = l'.
Proof.
  induction l as [|x l IH]; intros l' D P S S'; [now apply Permutation_nil in P|]. destruct l' as [|y l']; [now apply Permutation_sym, Permutation_nil in P|].
  assert (x = y) as <-.
  { assert (Ix : In x (y :: l')) by (eapply Permutation_in; [exact P|now left]). assert (Iy : In y (x :: l)) by (eapply Permutation_in; [apply Permutation_sym; exact P|now left]).
    inversion S as [|? ? _ F]; subst. inversion S' as [|? ? _ F']; subst. rewrite Forall_forall in F, F'. destruct Iy as [->|Iy]; [reflexivity|]. destruct Ix as [->|Ix]; [reflexivity|].
    apply (end_inj (x :: l)); [exact D|now left|now right|]. specialize (F y Iy). specialize (F' x Ix). unfold position_le in *. lia. }
  f_equal. apply IH; [now inversion D|now apply Permutation_cons_inv in P|now inversion S|now inversion S'].
Qed.
Lemma says_readable known rd m : says known rd m -> SemSpec.readable grammar_analyzer rd.
Proof.
  intros [p q|s p q t I N|s p q t refs sems abbrs f found sorted I W Se _ _ _ _]; unfold SemSpec.readable; cbn [rd_text rd_before rd_after]; [exact Logic.I| |].
  - exists t. split; [exact I|]. intros W. contradiction.
  - exists t. split; [exact I|]. intros _. pose proof (sentence_found _ _ _ _ Se) as F. eexists. split; [exact F|]. exact (ends_differ _ _ F).
Qed.
Lemma says_stored known rd m m' : says known rd m -> stored grammar_analyzer known rd m' -> m = m'.
Proof.
  intros [p q|s p q t I N|s p q t refs sems abbrs f found sorted I W Se Me K P S]; unfold stored; cbn [rd_text rd_before rd_after]; [now intros ->| |].
  - intros (t' & I' & Q & _). rewrite (item_text_unique _ _ _ _ I' I) in Q. symmetry. auto.
  - intros (t' & I' & _ & Q). rewrite (item_text_unique _ _ _ _ I' I) in Q. destruct (Q W) as (a & g & found' & sorted' & F & Me' & K' & P' & S' & ->). clear Q I'.
    pose proof (sentence_found _ _ _ _ Se) as F'. rewrite F' in F. injection F as <-. cbn [an_references an_abbreviations an_semantic] in *.
    assert (E : forall k, f k = g k) by (intros k; exact (meaning_same _ _ _ k Me Me')). pose proof (kept_same f g _ _ _ _ E K _ K') as <-.
    assert (D : NoDup (map or_end sorted)).
    { eapply Permutation_NoDup; [apply Permutation_map; exact P|]. eapply kept_ends; [exact K|]. exact (ends_differ _ _ F'). }
    f_equal; f_equal; [|now apply map_ext; intros x; apply sem_same].
    apply sorted_same; auto. eapply Permutation_trans; [apply Permutation_sym; exact P|exact P'].
Qed.
Lemma says_all_stored known rds ms : says_all known rds ms -> forall ms' after, stored_all grammar_analyzer known rds ms' after -> ms = ms'.
Proof.
  intros S. induction S as [known|known rd m abbrs rds ms S A R IH]; intros ms' after T; inversion T; subst; [reflexivity|].
  match goal with Q : stored _ _ _ _ |- _ => pose proof (says_stored _ _ _ _ S Q) as <- end. f_equal.
  match goal with Q : m_abbreviations m = Some _ |- _ => rewrite A in Q; injection Q as <- end. eauto.
Qed.
Lemma says_all_readable known rds ms : says_all known rds ms -> Forall (SemSpec.readable grammar_analyzer) rds.
Proof. intros S. induction S; constructor; [eapply says_readable; eauto|assumption]. Qed.

(** * Laws *)

Lemma bare_twice s : bare (bare s) = bare s.
Proof.
  induction s as [s IH] using sae_induct. destruct (can_be_semantic_parsed (s_kind s)) eqn:K; [|now rewrite !bare_container by (rewrite ?bare_container; exact K)].
  rewrite (bare_eq (bare s)) by now rewrite bare_kind. rewrite (bare_eq s K). cbn [s_kind s_identifier s_text s_intro s_children s_wrap_up]. f_equal.
  destruct (s_children s) as [cs|] eqn:C; [|reflexivity]. f_equal. rewrite map_map. apply map_ext_in. intros [x|x|x|x] I; cbn [bare_ch]; try reflexivity. f_equal. exact (IH cs x eq_refl I).
Qed.
Lemma bare_act_twice a : bare_act (bare_act a) = bare_act a.
Proof.
  unfold bare_act. cbn. f_equal. rewrite map_map. apply map_ext. intros [e|x]; cbn [bare_child]; [reflexivity|]. unfold bare_article. cbn. do 2 f_equal.
  rewrite map_map. apply map_ext. exact bare_twice.
Qed.
Theorem law_parsed i d s c lines : law_written c lines -> act_identifier c = i -> act_publication_date c = d -> act_subject c = s ->
  exists a b, parse_act i d s lines = Ok a /\ block_parse_act grammar_analyzer a = Ok b /\ add_semantics_to_act grammar_analyzer b = Ok c.
Proof.
  intros (a & b & L & A & E & S) <- <- <-. exists a, b.
  assert (P : parse_act (act_identifier c) (act_publication_date c) (act_subject c) lines = Ok a).
  { destruct A as (A1 & A2 & A3 & _). apply act_parsed; [exact L| | |]; rewrite <- ?A1, <- ?A2, <- ?A3, <- E; reflexivity. }
  split; [exact P|]. pose proof (parse_act_fresh _ _ _ _ _ P) as F. pose proof (amending_act_block a b F A) as B. split; [exact B|].
  destruct (fresh_ready b (block_act_fresh _ _ _ F B)) as (Bb & U & C).
  destruct (act_total grammar_analyzer b Bb U C (says_all_readable _ _ _ S)) as [c' G]. rewrite G. f_equal.
  destruct (act_stored _ _ _ U G) as [known T]. apply bare_act_inj; [|symmetry; exact (says_all_stored _ _ _ S _ _ T)].
  rewrite (act_keeps _ _ _ G), <- E. apply bare_act_twice.
Qed.
