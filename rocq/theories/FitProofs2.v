From Coq Require Import Permutation Sorted Floats.SpecFloat.
From Verif Require Import PyBase PyBaseFacts IdModel LineModel DateModel RefModel TreeModel TreeSpec TreeProofs TreeProofs2 StructModel StructProofs SemModel SemSpec SemProofs SemProofs2 SemProofs4 SemProofs6
  D2oHunSpec GramModel PegModel GazModel FitSpec FitProofs.
Local Open Scope Z_scope.

(** * Readiness for semantic parsing *)

Lemma carriers_inside s : forall c, In c (carriers s) -> c = s \/ inside_sae (ChSae c) s.
Proof.
  induction s as [s IH] using sae_induct. intros c I. destruct (can_be_semantic_parsed (s_kind s)) eqn:K.
  - rewrite carriers_eq in I by exact K. destruct I as [<-|I]; [now left|]. right. destruct (s_children s) as [cs|] eqn:C; [|destruct I].
    unfold child_carriers in I. apply in_flat_map in I as (d & Id & I). destruct d as [x| | |]; try contradiction.
    destruct (IH cs x eq_refl Id c I) as [->|J]; [now econstructor 1; eauto|]. econstructor 2; [exact C|exact Id|now constructor].
  - rewrite carriers_container in I by exact K. destruct I.
Qed.
Lemma carriers_in_act a s : In s (carriers_of a) -> in_act a (ChSae s).
Proof.
  unfold carriers_of, act_articles. intros I. apply in_flat_map in I as (x & Ix & I). apply in_flat_map in Ix as ([e|y] & Iy & Ix); cbn in Ix; [destruct Ix|].
  destruct Ix as [->|[]]. apply in_flat_map in I as (p & Ip & I). exists x. split; [exact Iy|]. right.
  destruct (carriers_inside p s I) as [->|J]; [now constructor|]. econstructor 2; eauto.
Qed.
Lemma fresh_ready a : fresh_act a -> built_act a /\ unparsed_act a /\ complete_act a.
Proof.
  intros [B P M C _]. split; [exact B|]. split; apply Forall_forall; intros s I; apply carriers_in_act in I.
  - rewrite (M s I). reflexivity.
  - exact (C s I).
Qed.

(** * The same text with semantic data *)

Lemma map_eq_in {A B} (f g : A -> B) l : forall l' y, map f l = map g l' -> In y l' -> exists x, In x l /\ f x = g y.
Proof.
  induction l as [|x l IH]; intros [|z l'] y E I; try discriminate; [destruct I|]. cbn [map] in E. injection E as E1 E2. destruct I as [<-|I].
  - exists x. split; [now left|exact E1].
  - destruct (IH l' y E2 I) as (w & W & Ew). exists w. split; [now right|exact Ew].
Qed.
Lemma bare_children p q : bare p = bare q -> can_be_semantic_parsed (s_kind q) = true ->
  s_kind p = s_kind q /\ s_identifier p = s_identifier q /\ s_text p = s_text q /\ s_intro p = s_intro q /\ s_wrap_up p = s_wrap_up q /\
  match s_children p, s_children q with
  | None, None => True
  | Some l, Some l' => map bare_ch l = map bare_ch l'
  | _, _ => False
  end.
Proof.
  intros E K. assert (Ek : s_kind p = s_kind q) by (rewrite <- (bare_kind p), E; apply bare_kind).
  rewrite (bare_eq p) in E by (rewrite Ek; exact K). rewrite (bare_eq q) in E by exact K. injection E as E1 E2 E3 E4 E5 E6. repeat split; auto.
  destruct (s_children p), (s_children q); try discriminate; [|exact Logic.I]. congruence.
Qed.
Lemma bare_same p q : bare p = bare q -> can_be_semantic_parsed (s_kind q) = false -> p = q.
Proof.
  intros E K. assert (Ek : s_kind p = s_kind q) by (rewrite <- (bare_kind p), E; apply bare_kind).
  rewrite bare_container in E by (rewrite Ek; exact K). now rewrite bare_container in E.
Qed.
Lemma bare_built p : forall q, bare p = bare q -> built_sae p -> built_sae q.
Proof.
  induction p as [p IH] using sae_induct. intros q E B. destruct (can_be_semantic_parsed (s_kind q)) eqn:K.
  2:{ now rewrite <- (bare_same p q E K). }
  destruct (bare_children p q E K) as (E1 & E2 & E3 & E4 & E5 & E6). apply built_local in B as [[W1 W2 W3 W4] B]. apply built_sae_iff.
  destruct (s_children p) as [l|] eqn:Cp, (s_children q) as [l'|] eqn:Cq; try contradiction.
  - assert (X : forall c, In c l' -> exists d, In d l /\ bare_ch d = bare_ch c) by (intros c I; exact (map_eq_in _ _ _ _ _ E6 I)).
    split.
    + constructor.
      * intros T. rewrite <- E3 in T. destruct (W1 T) as (_ & Y & _). congruence.
      * rewrite Cq. intros [= ->]. apply W2. destruct l; [reflexivity|discriminate].
      * rewrite <- E1, Cq. intros N cs c d [= <-] I J. destruct (X c I) as (c' & I' & Ec). destruct (X d J) as (d' & J' & Ed).
        rewrite <- (bare_ch_class c), <- (bare_ch_class d), <- Ec, <- Ed, !bare_ch_class. exact (W3 N l c' d' eq_refl I' J').
      * rewrite <- E1, Cq. intros cs c [= <-] I. destruct (X c I) as (c' & I' & Ec). rewrite <- (bare_ch_class c), <- Ec, bare_ch_class. exact (W4 l c' eq_refl I').
    + intros cs c [= <-] I. destruct (X c I) as (d & J & Ed). specialize (B l d eq_refl J).
      destruct d as [x| | |], c as [y| | |]; cbn in Ed; try discriminate Ed; try (injection Ed as <-; exact B); try (subst; exact B).
      constructor. inversion B; subst. injection Ed as Ed. exact (IH l x eq_refl J y Ed ltac:(assumption)).
  - split; [|intros cs c [= ]]. constructor.
    + rewrite <- E3, <- E4, <- E5. intros T. destruct (W1 T) as (A1 & _ & A2). auto.
    + congruence.
    + rewrite Cq. discriminate.
    + rewrite Cq. discriminate.
Qed.

(* what is inside an element: one that carries semantic data, or something that the element without them has too *)
Definition carried (c : child) (q : sae) : Prop := match c with ChSae s => In s (carriers q) | _ => False end.
Lemma bare_inside :
  (forall c q, inside_sae c q -> forall p, bare p = bare q -> carried c q \/ inside_sae c p) /\
  (forall c d, inside_child_of c d -> forall d', bare_ch d' = bare_ch d -> (exists q, d = ChSae q /\ carried c q) \/ inside_child_of c d') /\
  (forall c a, inside_article c a -> True).
Proof.
  apply inside_mutind.
  - intros q cs c C I p E. destruct (can_be_semantic_parsed (s_kind q)) eqn:K.
    2:{ right. rewrite (bare_same p q E K). now econstructor 1; eauto. }
    destruct (bare_children p q E K) as (_ & _ & _ & _ & _ & E6). rewrite C in E6. destruct (s_children p) as [l|] eqn:Cp; [|contradiction].
    destruct (map_eq_in _ _ _ _ _ E6 I) as (d & J & Ed). destruct c as [s| | |].
    + destruct d as [x| | |]; try discriminate Ed. cbn in Ed. injection Ed as Ed. destruct (can_be_semantic_parsed (s_kind s)) eqn:Ks.
      * left. unfold carried. rewrite carriers_eq by exact K. rewrite C. right. unfold child_carriers. apply in_flat_map. exists (ChSae s). split; [exact I|].
        rewrite carriers_eq by exact Ks. now left.
      * right. rewrite (bare_same x s Ed Ks) in J. econstructor 1; eauto.
    + right. destruct d; try discriminate Ed. cbn in Ed. injection Ed as <-. econstructor 1; eauto.
    + right. destruct d; try discriminate Ed. cbn in Ed. injection Ed as <-. econstructor 1; eauto.
    + right. destruct d; try discriminate Ed. cbn in Ed. injection Ed as <-. econstructor 1; eauto.
  - intros q cs d c C I D IH p E. destruct (can_be_semantic_parsed (s_kind q)) eqn:K.
    2:{ right. rewrite (bare_same p q E K). econstructor 2; eauto. }
    destruct (bare_children p q E K) as (_ & _ & _ & _ & _ & E6). rewrite C in E6. destruct (s_children p) as [l|] eqn:Cp; [|contradiction].
    destruct (map_eq_in _ _ _ _ _ E6 I) as (d' & J & Ed). destruct (IH d' Ed) as [(x & -> & X)|X].
    + left. destruct c as [s| | |]; try contradiction. cbn in *. rewrite carriers_eq by exact K. rewrite C. right. unfold child_carriers. apply in_flat_map. exists (ChSae x). auto.
    + right. econstructor 2; eauto.
  - intros c q D IH d' E. destruct d' as [p| | |]; try discriminate E. cbn in E. injection E as E. destruct (IH p E) as [X|X].
    + left. eauto.
    + right. now constructor.
  - intros c a D _ d' E. right. destruct d' as [|b| |]; try discriminate E. cbn in E. injection E as ->. now constructor.
  - exact (fun _ _ _ => Logic.I).
  - exact (fun _ _ _ _ _ _ => Logic.I).
Qed.

Lemma bare_act_article b c x : bare_act c = bare_act b -> In (AArticle x) (act_children c) ->
  exists y, In (AArticle y) (act_children b) /\ bare_article y = bare_article x.
Proof.
  intros E I. unfold bare_act in E. injection E as _ _ _ _ E. symmetry in E. destruct (map_eq_in _ _ _ _ _ E I) as ([e|y] & J & Ey); cbn in Ey; [discriminate|].
  exists y. split; [exact J|congruence].
Qed.
Lemma bare_in_act b c d : bare_act c = bare_act b -> in_act c d ->
  (exists s, d = ChSae s /\ In s (carriers_of c)) \/ in_act b d \/
  (exists x y, d = ChArticle x /\ In (AArticle x) (act_children c) /\ In (AArticle y) (act_children b) /\ bare_article y = bare_article x).
Proof.
  intros E (x & I & D). destruct (bare_act_article b c x E I) as (y & J & Ey). destruct D as [->|D]; [right; right; eauto 6|].
  assert (Ep : map bare (a_paragraphs y) = map bare (a_paragraphs x)) by (unfold bare_article in Ey; congruence).
  assert (X : forall s, (exists p, In p (a_paragraphs x) /\ In s (carriers p)) -> In s (carriers_of c)).
  { intros s (p & Ip & Is). unfold carriers_of, act_articles. apply in_flat_map. exists x. split; [apply in_flat_map; exists (AArticle x); cbn; auto|]. apply in_flat_map. eauto. }
  inversion D as [a p Ip|a p q Ip Dp]; subst.
  - destruct (map_eq_in _ _ _ _ _ Ep Ip) as (p' & Ip' & Epp). destruct (can_be_semantic_parsed (s_kind p)) eqn:K.
    + left. exists p. split; [reflexivity|]. apply X. exists p. split; [exact Ip|]. rewrite carriers_eq by exact K. now left.
    + right. left. rewrite (bare_same _ _ Epp K) in Ip'. exists y. split; [exact J|]. right. now constructor.
  - destruct (map_eq_in _ _ _ _ _ Ep Ip) as (p' & Ip' & Epp). destruct (proj1 bare_inside _ _ Dp p' Epp) as [Y|Y].
    + left. destruct d as [s| | |]; try contradiction. exists s. split; [reflexivity|]. apply X. exists p. auto.
    + right. left. exists y. split; [exact J|]. right. econstructor 2; eauto.
Qed.
Lemma bare_paragraphs x y : bare_article y = bare_article x -> paragraphs_only y -> paragraphs_only x.
Proof.
  unfold bare_article, paragraphs_only. intros E. injection E as _ _ E. revert E. generalize (a_paragraphs x). induction (a_paragraphs y) as [|p l IH]; intros [|q l'] E F; try discriminate; [constructor|].
  cbn [map] in E. injection E as E1 E2. apply Forall_cons_iff in F as [F1 F2]. constructor; [|auto]. rewrite <- (bare_kind q), <- E1, bare_kind. exact F1.
Qed.
Lemma bare_built_article x y : bare_article y = bare_article x -> built_article y -> built_article x.
Proof.
  intros E B. apply built_article_local in B as [W B]. unfold bare_article in E. injection E as E1 E2 E3.
  apply (built_article_intro (a_identifier x) (a_title x) (a_paragraphs x)).
  - intros p I. destruct (map_eq_in _ _ _ _ _ E3 I) as (q & J & Eq). exact (bare_built q p Eq (B q J)).
  - apply new_article_ok. split; [now destruct x|]. destruct W as [(p & Ep & N)|F].
    + left. rewrite Ep in E3. destruct (a_paragraphs x) as [|q [|]]; try discriminate E3. exists q. split; [reflexivity|].
      cbn [map] in E3. injection E3 as E3. rewrite <- (bare_identifier q), <- E3, bare_identifier. exact N.
    + right. rewrite Forall_forall in *. intros p I. destruct (map_eq_in _ _ _ _ _ E3 I) as (q & J & Eq).
      rewrite <- (bare_identifier p), <- Eq, bare_identifier. auto.
Qed.
Lemma bare_built_act b c : bare_act c = bare_act b -> built_act b -> built_act c.
Proof.
  intros E B x I. destruct (bare_act_article b c x E I) as (y & J & Ey). destruct (B y J) as [By Py]. split; [eapply bare_built_article; eauto|eapply bare_paragraphs; eauto].
Qed.

Lemma resolve_dates s m : dates_of (sem_resolve s m) = dates_of s.
Proof. now destruct s. Qed.
Lemma stored_dates an known rd m data s d : real_dates an -> stored an known rd m -> m_semantic m = Some data -> In s data -> In d (dates_of s) -> real_date d.
Proof.
  intros R S M I D. unfold stored in S. destruct (rd_text rd) as [t|].
  2:{ subst m. injection M as <-. destruct I. }
  destruct S as (t' & IT & N & Y). cbv zeta in *.
  assert (DD : worth_reading (rd_before rd ++ t' ++ rd_after rd) \/ ~ worth_reading (rd_before rd ++ t' ++ rd_after rd)).
  { rewrite worth_spec. destruct (10000 <? _), (existsb _ _); intuition congruence. }
  destruct DD as [W|W].
  - destruct (Y W) as (a & f & found & k & A & _ & _ & _ & _ & ->). injection M as <-. apply in_map_iff in I as (s' & <- & I). rewrite resolve_dates in D. exact (R _ _ _ _ A I D).
  - rewrite (N W) in M. injection M as <-. destruct I.
Qed.
Lemma forall2_in_r {A B} (R : A -> B -> Prop) l m y : Forall2 R l m -> In y m -> exists x, R x y.
Proof. induction 1 as [|a b l m H F IH]; intros I; [destruct I|]. destruct I as [<-|I]; eauto. Qed.
Lemma finished_writable an b c : fresh_act b -> real_date (act_publication_date b) -> real_dates an -> add_semantics_to_act an b = Ok c -> writable c.
Proof.
  intros F P R E. destruct (fresh_ready b F) as (B & U & _). pose proof (act_keeps an b c E) as K. destruct F as [_ FP FM _ _]. constructor.
  - exact (bare_built_act b c K B).
  - intros x I. destruct (bare_in_act b c _ K I) as [(s & ? & _)|[J|(x' & y & X & _ & J & Ey)]]; [discriminate|exact (FP x J)|].
    injection X as <-. eapply bare_paragraphs; [exact Ey|]. exact (proj2 (B y J)).
  - unfold bare_act in K. injection K as _ -> _ _ _. exact P.
  - intros s data d e I M ID IE. destruct (bare_in_act b c _ K I) as [(s' & X & J)|[J|(x' & y & X & _)]]; [|rewrite (FM s J) in M; discriminate|discriminate].
    injection X as <-. destruct (forall2_in_r _ _ _ _ (act_each_stored an b c B U E) J) as (rd & _ & known & S). eapply stored_dates; eauto.
Qed.
Lemma finished_lines an b c : add_semantics_to_act an b = Ok c -> forall l, line_in_act c l -> line_in_act b l.
Proof.
  intros E l (ls & I & J). pose proof (act_keeps an b c E) as K. exists ls. split; [|exact J].
  destruct (bare_in_act b c _ K I) as [(s' & X & _)|[Y|(x' & y & X & _)]]; [discriminate|exact Y|discriminate].
Qed.
Lemma fresh_writable a : fresh_act a -> real_date (act_publication_date a) -> writable a.
Proof. intros [B P M C _] D. constructor; auto. intros s data d e I E. rewrite (M s I) in E. discriminate. Qed.

(** * Dates *)

Lemma Date_real y m d x : Date_ y m d = Ok x -> real_date x.
Proof. intros E. pose proof E as E0. unfold Date_ in E. apply bind_ok in E as ([[a b] c] & _ & E). injection E as <-. exact E0. Qed.
Lemma exact_date_real d x : convert_exact_date d = Ok x -> real_date x.
Proof. unfold convert_exact_date. intros E. apply bind_ok in E as (y & _ & E). apply bind_ok in E as (m & _ & E). apply bind_ok in E as (dd & _ & E). exact (Date_real _ _ _ _ E). Qed.
Definition real_conversion (c : conversion) : Prop := match c with CSemantic s => Forall real_date (dates_of s) | _ => True end.
Lemma outgoings_real r l : outgoings r = Ok l -> Forall real_conversion l.
Proof. unfold outgoings. intros E. apply bind_ok in E as (x & _ & E). injection E as <-. apply Forall_map, Forall_forall. intros y _. exact Logic.I. Qed.
Lemma both_real a b l : (forall x, a = Ok x -> Forall real_conversion x) -> (forall x, b = Ok x -> Forall real_conversion x) -> both a b = Ok l -> Forall real_conversion l.
Proof. unfold both. intros A B E. apply bind_ok in E as (x & Ex & E). apply bind_ok in E as (y & Ey & E). injection E as <-. apply Forall_app. auto. Qed.
Lemma semantics_real r l : (forall x, r = Ok x -> Forall (fun s => Forall real_date (dates_of s)) x) -> semantics r = Ok l -> Forall real_conversion l.
Proof. unfold semantics. intros R E. apply bind_ok in E as (x & Ex & E). injection E as <-. apply Forall_map. exact (R x Ex). Qed.
Lemma no_dates l : Forall (fun s => dates_of s = []) l -> Forall (fun s => Forall real_date (dates_of s)) l.
Proof. intros F. eapply Forall_impl; [|exact F]. intros s E. rewrite E. constructor. Qed.
Lemma enforcement_real refs ex af day rep l : enforcement_to_enforcement refs ex af day rep = Ok l -> Forall (fun s => Forall real_date (dates_of s)) l.
Proof.
  unfold enforcement_to_enforcement. intros E. apply bind_ok in E as (d & D & E). apply bind_ok in E as (r & R & E).
  assert (F : forall p, Forall real_date (dates_of (EnforcementDate p d r))).
  { intros p. cbn [dates_of]. apply Forall_app. split.
    - destruct ex as [x|].
      + apply bind_ok in D as (y & Y & D). injection D as <-. constructor; [exact (exact_date_real _ _ Y)|constructor].
      + destruct af as [f|].
        * unfold convert_after_publication_date in D. destruct (gf_as_number f); [apply bind_ok in D as (i & _ & D); injection D as <-; constructor|].
          destruct (gf_as_text f) as [[|c t]|]; try (injection D as <-; constructor). apply bind_ok in D as (i & _ & D). injection D as <-. constructor.
        * destruct day as [y|]; [|discriminate]. unfold convert_day_in_month in D. apply bind_ok in D as (mm & _ & D). apply bind_ok in D as (dd & _ & D). injection D as <-. constructor.
    - destruct rep as [x|]; [|injection R as <-; constructor]. apply bind_ok in R as (y & Y & R). injection R as <-. constructor; [exact (exact_date_real _ _ Y)|constructor]. }
  destruct refs as [|g gs]; [injection E as <-; repeat constructor; apply F|]. apply bind_ok in E as (os & _ & E). injection E as <-. apply Forall_map, Forall_forall. intros o _. apply F.
Qed.
