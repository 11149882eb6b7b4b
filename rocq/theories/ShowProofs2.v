From Coq Require Import Lia.
From Coq Require Import ZifyBool ZifyNat ZifyN.
From Verif Require Import PyBase PyBaseFacts IdModel LineModel DateModel RefModel RefSpec TreeModel TreeSpec TreeProofs TreeProofs2 StructModel GazModel GramModel HtmlModel HtmlSpec HtmlProofs HtmlProofs2 HtmlProofs3 HtmlProofs6 TxtModel TxtSpec
  SemModel SemSpec SemProofs SemProofs2 SemProofs4 SemProofs6 D2oHunSpec FitSpec FitProofs FitProofs2 PegModel PegSpec PegProofs20 PegProofs21 PipeModel PipeSpec CliModel CliSpec ShowSpec ShowProofs.
Local Open Scope Z_scope.

(** * Semantic parsing only adds semantic data *)

Lemma carriers_same {A} (g : sae -> A) : (forall e, can_be_semantic_parsed (s_kind e) = true -> g (bare e) = g e) -> forall e, map g (carriers (bare e)) = map g (carriers e).
Proof.
  intros G e. induction e as [e IH] using sae_induct. destruct (can_be_semantic_parsed (s_kind e)) eqn:K.
  2:{ now rewrite SemProofs.bare_container. }
  rewrite (carriers_eq (bare e)) by (rewrite SemProofs.bare_kind; exact K). rewrite (carriers_eq e) by exact K. cbn [map]. rewrite G by exact K. f_equal.
  rewrite bare_eq by exact K. cbn [s_children]. destruct (s_children e) as [l|]; [|reflexivity].
  assert (IH' : forall x, In (ChSae x) l -> map g (carriers (bare x)) = map g (carriers x)) by eauto.
  clear -IH'. induction l as [|c l IHl]; [reflexivity|]. unfold child_carriers in *. cbn [map flat_map]. rewrite !map_app.
  rewrite IHl by (intros x Hx; apply IH'; now right). f_equal. destruct c; cbn [bare_ch]; try reflexivity. apply IH'. now left.
Qed.
Lemma carriers_same_act {A} (g : sae -> A) : (forall e, can_be_semantic_parsed (s_kind e) = true -> g (bare e) = g e) -> forall a a', bare_act a' = bare_act a -> map g (carriers_of a') = map g (carriers_of a).
Proof.
  intros G a a' H. unfold bare_act in H. injection H as _ _ _ _ H. unfold carriers_of, act_articles. revert H.
  generalize (act_children a), (act_children a'). induction l as [|c l IH]; intros [|c' l'] H; try discriminate; [reflexivity|].
  cbn [map] in H. injection H as H1 H2. destruct c as [e|x], c' as [e'|x']; try discriminate; cbn [flat_map app]; [auto|].
  rewrite !map_app, (IH _ H2). f_equal. cbn [bare_child] in H1. unfold bare_article in H1. injection H1 as _ _ H1. revert H1. generalize (a_paragraphs x), (a_paragraphs x'). clear - G.
  induction l as [|p ps IH]; intros [|p' ps'] H; try discriminate; [reflexivity|]. cbn [map flat_map] in *. injection H as H1 H2. rewrite !map_app, (IH _ H2). f_equal. now rewrite <- (carriers_same g G p'), H1, (carriers_same g G).
Qed.
Lemma readings_bare e : forall p q, readings (bare e) p q = readings e p q.
Proof.
  induction e as [e IH] using sae_induct. intros p q. destruct (can_be_semantic_parsed (s_kind e)) eqn:K.
  2:{ now rewrite SemProofs.bare_container. }
  rewrite bare_eq by exact K. set (b := mk_sae _ _ _ _ _ _ _). assert (Kb : can_be_semantic_parsed (s_kind b) = true) by exact K.
  destruct (s_text e) as [t|] eqn:T.
  - rewrite (readings_text e p q t) by assumption. apply readings_text; [exact Kb|reflexivity].
  - destruct (s_children e) as [l|] eqn:C.
    + rewrite (readings_children e p q l) by assumption. rewrite (readings_children b p q (map bare_ch l)); [|exact Kb|reflexivity|reflexivity]. change (s_intro b) with (s_intro e). change (s_wrap_up b) with (s_wrap_up e). f_equal.
      generalize (inner_prefix p (s_intro e)), (inner_postfix q (s_wrap_up e)). intros p' q'.
      assert (IH' : forall x, In (ChSae x) l -> forall p q, readings (bare x) p q = readings x p q) by eauto.
      clear -IH'. induction l as [|c l IHl]; [reflexivity|]. unfold child_readings in *. cbn [map flat_map]. rewrite IHl by (intros x Hx; apply IH'; now right). f_equal. destruct c; cbn [bare_ch]; try reflexivity. apply IH'. now left.
    + rewrite (readings_leaf e) by assumption. rewrite (readings_leaf b); [reflexivity|exact Kb|reflexivity|reflexivity].
Qed.
Lemma readings_same a a' : bare_act a' = bare_act a -> readings_of a' = readings_of a.
Proof.
  intros H. unfold bare_act in H. injection H as _ _ _ _ H. unfold readings_of, act_articles. revert H.
  generalize (act_children a), (act_children a'). induction l as [|c l IH]; intros [|c' l'] H; try discriminate; [reflexivity|].
  cbn [map] in H. injection H as H1 H2. destruct c as [e|x], c' as [e'|x']; try discriminate; cbn [flat_map app]; [auto|].
  rewrite (IH _ H2). f_equal. cbn [bare_child] in H1. unfold bare_article in H1. injection H1 as _ _ H1. revert H1. generalize (a_paragraphs x), (a_paragraphs x'). clear.
  induction l as [|p ps IH]; intros [|p' ps'] H; try discriminate; [reflexivity|]. cbn [map flat_map] in *. injection H as H1 H2. rewrite (IH _ H2). f_equal. now rewrite <- (readings_bare p'), H1, readings_bare.
Qed.

(** * Acts that are read *)

Lemma fresh_sturdy a : fresh_act a -> (forall e, struct_in_act a e -> exists f, formatted_identifier e = Ok f) -> sturdy a.
Proof. intros [_ _ _ C A] S. constructor; auto. Qed.
Lemma parsed_sturdy i d s ls a : parse_act i d s ls = Ok a -> sturdy a.
Proof.
  intros E. apply fresh_sturdy; [exact (parse_act_fresh _ _ _ _ _ E)|]. exact (parse_act_structs (fun e => exists f, formatted_identifier e = Ok f) struct_shown _ _ _ _ _ E).
Qed.
Lemma amended_sturdy an a b : fresh_act a -> sturdy a -> block_parse_act an a = Ok b -> sturdy b.
Proof.
  intros F [_ _ S] E. apply fresh_sturdy; [exact (block_act_fresh _ _ _ F E)|]. exact (block_act_structs (fun e => exists f, formatted_identifier e = Ok f) struct_shown _ _ _ F S E).
Qed.
Definition has_children (s : sae) : bool := match s_children s with Some _ => true | None => false end.
Lemma finished_sturdy an b c : sturdy b -> add_semantics_to_act an b = Ok c -> sturdy c.
Proof.
  intros [C A S] E. pose proof (act_keeps an b c E) as K. constructor.
  - intros s I. destruct (bare_in_act b c _ K I) as [(s' & X & J)|[J|(x' & y & X & _)]]; [|exact (C s J)|discriminate]. injection X as <-.
    pose proof (carriers_same_act (fun e => (s_text e, has_children e))) as M. specialize (M ltac:(intros e Ke; rewrite bare_eq by exact Ke; unfold has_children; cbn [s_text s_children]; destruct (s_children e); reflexivity) b c K).
    assert (J' : In (s_text s, has_children s) (map (fun e => (s_text e, has_children e)) (carriers_of b))) by (rewrite <- M; apply in_map_iff; eauto).
    apply in_map_iff in J' as (s' & X & J'). injection X as X1 X2. apply carriers_in_act in J'. destruct (C s' J') as [H|H]; [left; congruence|right]. unfold has_children in X2. destruct (s_children s'), (s_children s); congruence.
  - intros s I Ks. destruct (bare_in_act b c _ K I) as [(s' & X & J)|[J|(x' & y & X & _)]]; [|exact (A s J Ks)|discriminate]. injection X as <-.
    exfalso. clear - J Ks. unfold carriers_of in J. apply in_flat_map in J as (x & _ & J). apply in_flat_map in J as (p & _ & J). revert J. induction p as [e IH] using sae_induct. intros J.
    destruct (can_be_semantic_parsed (s_kind e)) eqn:Ke; [|rewrite carriers_container in J by exact Ke; destruct J].
    rewrite carriers_eq in J by exact Ke. destruct J as [<-|J]; [rewrite Ks in Ke; discriminate|]. destruct (s_children e) as [l|] eqn:L; [|destruct J]. unfold child_carriers in J. apply in_flat_map in J as ([z| | |] & Iz & J); try destruct J; eauto.
  - intros e [I|I].
    + apply S. left. unfold bare_act in K. injection K as _ _ _ _ K. symmetry in K. destruct (map_eq_in _ _ _ _ _ K I) as ([e'|y] & J & Ey); cbn in Ey; [|discriminate]. injection Ey as ->. exact J.
    + destruct (bare_in_act b c _ K I) as [(s' & X & _)|[J|(x' & y & X & _)]]; [discriminate| |discriminate]. apply S. now right.
Qed.
Lemma read_sturdy e x s o name a : reads e x s (Ok o) -> document o name (OAct a) -> sturdy a.
Proof.
  assert (A : forall a, reads e x StructureOnly (Ok (OStruct a)) -> fresh_act a /\ sturdy a).
  { intros a' R. inversion R as [| |lines F a'' P| | | | |]; subst. split; [exact (parse_act_fresh _ _ _ _ _ P)|exact (parsed_sturdy _ _ _ _ _ P)]. }
  assert (B : forall b, reads e x BaOnly (Ok (OBlock b)) -> sturdy b).
  { intros b R. inversion R as [| | | |a' b' RS Bl| | |]; subst. destruct (A a' RS) as [F S]. exact (amended_sturdy _ _ _ F S Bl). }
  intros R D. inversion D; subst.
  - inversion R as [| | | | | |b c RB S|]; subst. exact (finished_sturdy _ _ _ (B b RB) S).
  - inversion R; subst; exact (proj2 (A a R)).
  - inversion R; subst; exact (B a R).
Qed.

(** * What they are printed as *)

Lemma prints_inside c n d : prints c n d -> d = c \/ inside_child_of d c.
Proof.
  induction 1 as [c|s cs c n d T C I _ IH|a p n d I _ IH]; [now left| |]; right.
  - constructor. destruct IH as [->|IH]; [econstructor 1; eauto|econstructor 2; eauto].
  - constructor. destruct IH as [->|IH]; [econstructor 1; eauto|]. inversion IH; subst. econstructor 2; eauto.
Qed.
Lemma printed_in a c n d : In c (act_children a) -> prints (act_child_child c) n d -> (exists e, d = ChStruct e /\ In (AStruct e) (act_children a)) \/ in_act a d.
Proof.
  intros I P. apply prints_inside in P. destruct c as [e|x]; cbn [act_child_child] in P.
  - left. exists e. split; [|exact I]. destruct P as [->|P]; [reflexivity|inversion P].
  - right. exists x. split; [exact I|]. destruct P as [->|P]; [now left|right; now inversion P].
Qed.
Lemma sturdy_fits width a : sturdy a -> act_fits width a <-> roomy width a.
Proof.
  intros [C A S]. split; intros H c n d I P; pose proof (H c n d I P) as F; (destruct d as [s|x|ls|e]; [|exact F|exact F|]).
  - destruct F as [F1 F2]. split; [|exact F2]. intros T. apply F1. intros [_ N]. unfold nonempty in N. rewrite T in N. now apply N.
  - exact (proj1 F).
  - destruct F as [F1 F2]. split; [|exact F2]. intros N. destruct (printed_in a c n _ I P) as [(e & X & _)|J]; [discriminate|].
    destruct (sae_kind_eqb (s_kind s) KBlockAmendmentContainer) eqn:K; [apply (A s J); destruct (s_kind s); try discriminate; reflexivity|].
    destruct (C s J) as [T|T]; [|exact T]. destruct (s_text s) as [[|z t]|] eqn:E; [apply F1; exact E| |congruence]. exfalso. apply N. split; [intros X; rewrite X in K; discriminate|]. unfold nonempty. rewrite E. discriminate.
  - split; [exact F|]. apply S. destruct (printed_in a c n _ I P) as [(e' & X & J)|J]; [injection X as ->; now left|now right].
Qed.
Theorem sturdy_text w width a : splits w -> 0 < width -> sturdy a -> (exists o, txt_act w width [] a = Ok o) <-> roomy width a.
Proof. intros Sp W S. rewrite <- (sturdy_fits width a S). exact (act_shown w width Sp W a). Qed.

Lemma sturdy_showable a : sturdy a -> viewable a -> (forall s, in_act a (ChSae s) -> s_kind s <> KBlockAmendmentContainer -> good_positions (links s)) -> showable_act a.
Proof.
  intros [C A S] [V1 V2] L. split; [|intros e I; apply S; now left]. intros x c I D. assert (J : in_act a c) by (exists x; auto). destruct c as [s|y|ls|e]; cbn [showable].
  - split; [|now apply L]. destruct (sae_kind_eqb (s_kind s) KBlockAmendmentContainer) eqn:K; [left; apply (A s J); destruct (s_kind s); try discriminate; reflexivity|].
    destruct (C s J) as [T|T]; [|now left]. destruct (s_text s) as [[|z t]|] eqn:E; [left; exact (V1 s J E)| |congruence]. right. split; [intros X; rewrite X in K; discriminate|]. eexists. split; [reflexivity|discriminate].
  - exact Logic.I.
  - exact (V2 ls J).
  - apply S. now right.
Qed.
Lemma fresh_links a s : fresh_act a -> in_act a (ChSae s) -> good_positions (links s).
Proof. intros F I. unfold links. rewrite (fr_meta _ F s I). split; constructor. Qed.
Theorem fresh_page a : fresh_act a -> sturdy a -> viewable a -> exists file, html_file a = Ok file.
Proof. intros F S V. apply html_total, sturdy_showable; auto. intros s I _. exact (fresh_links a s F I). Qed.
Theorem finished_page b c : fresh_act b -> sturdy b -> Forall rangeless (readings_of c) -> viewable c -> add_semantics_to_act grammar_analyzer b = Ok c -> exists file, html_file c = Ok file.
Proof.
  intros F S R V E. pose proof (act_keeps _ b c E) as K. destruct (fresh_ready b F) as (B & Un & _). rewrite (readings_same b c K) in R.
  apply html_total, sturdy_showable; [exact (finished_sturdy _ _ _ S E)|exact V|]. intros s I _.
  destruct (bare_in_act b c _ K I) as [(s' & X & J)|[J|(x' & y & X & _)]]; [|exact (fresh_links b s F J)|discriminate]. injection X as <-.
  unfold links. destruct (m_outgoing (s_meta s)) as [refs|] eqn:O; [|split; constructor]. eapply grammar_positions; eauto.
Qed.
