From Coq Require Import ZifyBool ZifyNat ZifyN.
From Verif Require Import PyBase PyBaseFacts NumSpec IdModel IdSpec IdProofs LineModel DateModel RefModel RefSpec RefProofs
  TreeModel TreeSpec.
Local Open Scope Z_scope.

(** * Construction *)
Lemma sae_kind_eqb_eq a b : sae_kind_eqb a b = true <-> a = b.
Proof. destruct a, b; cbn; split; congruence. Qed.
Lemma struct_kind_eqb_eq a b : struct_kind_eqb a b = true <-> a = b.
Proof. destruct a, b; cbn; split; congruence. Qed.
Lemma class_eqb_eq a b : class_eqb a b = true <-> a = b.
Proof.
  destruct a as [a| | |a], b as [b| | |b]; cbn; try (split; congruence).
  - rewrite sae_kind_eqb_eq. split; congruence.
  - rewrite struct_kind_eqb_eq. split; congruence.
Qed.
Lemma child_allowed_spec k c : child_allowed k c = true <-> may_contain k c.
Proof.
  split.
  - destruct k, c as [k| | |k]; try destruct k; cbn; try discriminate; intros _; constructor; discriminate.
  - intros H. inversion H; subst; try reflexivity.
    match goal with k : sae_kind |- _ => destruct k end; try reflexivity. congruence.
Qed.

Lemma children_type_ok k cs t : children_type k cs = Ok t ->
  cs <> Some [] /\
  (k <> KBlockAmendmentContainer -> forall l c d, cs = Some l -> In c l -> In d l -> class_of c = class_of d).
Proof.
  destruct cs as [[|c0 l]|]; cbn; try discriminate; intros H.
  - split; [congruence|]. intros K l' c d [= <-] Hc Hd.
    destruct (forallb _ l) eqn:E.
    + rewrite forallb_forall in E.
      assert (A : forall x, In x (c0 :: l) -> class_of x = class_of c0).
      { intros x [->|Hx]; [reflexivity|]. apply class_eqb_eq. now apply E. }
      rewrite (A c Hc), (A d Hd). reflexivity.
    + destruct k; cbn in H; congruence.
  - split; congruence.
Qed.
Lemma children_type_complete k cs : cs <> Some [] ->
  (k <> KBlockAmendmentContainer -> forall l c d, cs = Some l -> In c l -> In d l -> class_of c = class_of d) ->
  exists t, children_type k cs = Ok t.
Proof.
  destruct cs as [[|c0 l]|]; cbn; intros H1 H2; [congruence| |eauto].
  destruct (forallb _ l) eqn:E; [eauto|]. destruct (mixed_children_allowed k) eqn:M; [eauto|].
  exfalso. assert (forallb (fun c => class_eqb (class_of c) (class_of c0)) l = true); [|congruence].
  apply forallb_forall. intros x Hx. apply class_eqb_eq. eapply H2; [|reflexivity| |]; [destruct k; discriminate| |]; cbn; auto.
Qed.

Lemma new_sae_ok k i t n cs w m s : new_sae k i t n cs w m = Ok s <->
  s = mk_sae k i t n cs w m /\ well_formed s.
Proof.
  unfold new_sae. split.
  - intros H. apply bind_ok in H as (ty & H1 & H). apply bind_ok in H as ([] & H2 & H).
    apply bind_ok in H as ([] & H3 & H). injection H as <-. split; [reflexivity|].
    apply children_type_ok in H1 as [N O]. constructor; cbn [s_text s_intro s_children s_wrap_up s_kind].
    + intros T. destruct t; [|congruence]. destruct n, w, cs; try discriminate. auto.
    + exact N.
    + exact O.
    + intros l c -> Hc. destruct (forallb _ l) eqn:E; [|discriminate]. rewrite forallb_forall in E.
      apply child_allowed_spec. now apply E.
  - intros [-> [T N O A]]. cbn [s_text s_intro s_children s_wrap_up s_kind] in *.
    destruct (children_type_complete k cs N O) as [ty ->]. cbn [bind].
    assert (E1 : (match t with None => Ok tt | Some _ => match n, w, cs with None, None, None => Ok tt | _, _, _ => Err ValueError end end) = Ok tt).
    { destruct t; [|reflexivity]. destruct T as (-> & -> & ->); [discriminate|]. reflexivity. }
    rewrite E1. cbn [bind]. destruct cs as [l|]; [|reflexivity].
    replace (forallb _ l) with true; [reflexivity|]. symmetry. apply forallb_forall. intros c Hc.
    apply child_allowed_spec. eauto.
Qed.
Lemma sae_eta s : s = mk_sae (s_kind s) (s_identifier s) (s_text s) (s_intro s) (s_children s) (s_wrap_up s) (s_meta s).
Proof. now destruct s. Qed.

(* which exceptions *)
Lemma new_sae_errors k i t n cs w m e : new_sae k i t n cs w m = Err e ->
  (e = IndexError /\ cs = Some []) \/
  (e = ValueError /\ t <> None /\ ~ (n = None /\ cs = None /\ w = None)) \/
  (e = TypeError /\ exists l c, cs = Some l /\ In c l /\
     ((k <> KBlockAmendmentContainer /\ exists d, In d l /\ class_of c <> class_of d) \/ ~ may_contain k (class_of c))).
Proof.
  unfold new_sae. destruct (children_type k cs) as [ty|e1] eqn:H1; cbn [bind].
  - destruct (match t with None => Ok tt | Some _ => match n, w, cs with None, None, None => Ok tt | _, _, _ => Err ValueError end end) as [[]|e2] eqn:H2; cbn [bind].
    + destruct cs as [l|]; cbn [bind]; [|discriminate].
      destruct (forallb _ l) eqn:E; cbn [bind]; [discriminate|]. intros [= <-]. right. right. split; [reflexivity|].
      assert (X : exists c, In c l /\ child_allowed k (class_of c) = false).
      { clear -E. induction l as [|c l IH]; [discriminate|]. cbn in E. destruct (child_allowed k (class_of c)) eqn:F.
        - destruct IH as (d & Hd & Ed); [exact E|]. exists d. split; [now right|exact Ed].
        - exists c. split; [now left|exact F]. }
      destruct X as (c & Hc & Ec). exists l, c. split; [reflexivity|]. split; [exact Hc|]. right.
      rewrite <- child_allowed_spec. congruence.
    + intros [= <-]. right. left. destruct t; [|discriminate]. split.
      * destruct n, w, cs; congruence.
      * split; [discriminate|]. intros (-> & -> & ->). discriminate.
  - intros [= <-]. destruct cs as [[|c0 l]|]; cbn in H1; [left; split; congruence| |discriminate].
    right. right. destruct (forallb _ l) eqn:E; [discriminate|].
    destruct (mixed_children_allowed k) eqn:M; [discriminate|]. injection H1 as <-. split; [reflexivity|].
    assert (X : exists d, In d l /\ class_of d <> class_of c0).
    { clear -E. induction l as [|c l IH]; [discriminate|]. cbn in E.
      destruct (class_eqb (class_of c) (class_of c0)) eqn:F.
      - destruct IH as (d & Hd & Ed); [exact E|]. exists d. split; [now right|exact Ed].
      - exists c. split; [now left|]. intros X. apply class_eqb_eq in X. congruence. }
    destruct X as (d & Hd & Nd). exists (c0 :: l), c0. split; [reflexivity|]. split; [now left|]. left.
    split; [destruct k; cbn in M; congruence|]. exists d. split; [now right|congruence].
Qed.

Lemma new_article_ok i t ps a : new_article i t ps = Ok a <->
  a = mk_article i t ps /\ article_well_formed a.
Proof.
  unfold new_article.
  assert (U : existsb (fun c => match s_identifier c with None => true | Some _ => false end) ps = true <->
              ~ Forall (fun p => s_identifier p <> None) ps).
  { split.
    - intros H F. apply existsb_exists in H as (c & Hc & E). rewrite Forall_forall in F. specialize (F c Hc).
      destruct (s_identifier c); congruence.
    - intros H. destruct (existsb _ ps) eqn:E; [reflexivity|]. exfalso. apply H. apply Forall_forall. intros c Hc N.
      assert (existsb (fun c => match s_identifier c with None => true | Some _ => false end) ps = true); [|congruence].
      apply existsb_exists. exists c. split; [exact Hc|]. now rewrite N. }
  split.
  - destruct (existsb _ ps) eqn:E; cbn [andb].
    + destruct (Nat.eqb (List.length ps) 1) eqn:L; cbn [negb]; [|discriminate]. intros [= <-]. split; [reflexivity|].
      apply existsb_exists in E as (p & Hp & Ep). destruct ps as [|p' [|]]; cbn in L; try discriminate.
      destruct Hp as [->|[]]. left. exists p. split; [reflexivity|]. destruct (s_identifier p); congruence.
    + intros [= <-]. split; [reflexivity|]. right. cbn [a_paragraphs].
      apply Forall_forall. intros c Hc N.
      assert (existsb (fun c => match s_identifier c with None => true | Some _ => false end) ps = true); [|congruence].
      apply existsb_exists. exists c. split; [exact Hc|]. now rewrite N.
  - intros [-> [(p & E & N)|F]]; cbn [a_paragraphs] in *.
    + subst ps. cbn. now rewrite N.
    + destruct (existsb _ ps) eqn:E; [|reflexivity]. exfalso. exact (proj1 U eq_refl F).
Qed.

Scheme built_sae_ind2 := Induction for built_sae Sort Prop
  with built_child_ind2 := Induction for built_child Sort Prop
  with built_article_ind2 := Induction for built_article Sort Prop.

Lemma built_local s : built_sae s -> well_formed s /\
  forall cs c, s_children s = Some cs -> In c cs -> built_child c.
Proof.
  intros H. inversion H as [k i t n cs w m s' B E E']; subst. apply new_sae_ok in E as [-> W]. split; [exact W|].
  exact B.
Qed.
Lemma built_sae_iff s : built_sae s <-> well_formed s /\
  forall cs c, s_children s = Some cs -> In c cs -> built_child c.
Proof.
  split; [apply built_local|]. intros [W B]. refine (built_sae_intro (s_kind s) (s_identifier s) (s_text s) (s_intro s) (s_children s) (s_wrap_up s) (s_meta s) s B _).
  apply new_sae_ok. split; [apply sae_eta|exact W].
Qed.
Lemma built_article_local a : built_article a -> article_well_formed a /\ forall p, In p (a_paragraphs a) -> built_sae p.
Proof.
  intros H. inversion H as [i t ps a' B E E']; subst. apply new_article_ok in E as [-> W]. auto.
Qed.

Scheme inside_sae_ind2 := Induction for inside_sae Sort Prop
  with inside_child_ind2 := Induction for inside_child_of Sort Prop
  with inside_article_ind2 := Induction for inside_article Sort Prop.
Combined Scheme inside_mutind from inside_sae_ind2, inside_child_ind2, inside_article_ind2.

Lemma built_inside :
  (forall c s, inside_sae c s -> built_sae s -> built_child c) /\
  (forall c d, inside_child_of c d -> built_child d -> built_child c) /\
  (forall c a, inside_article c a -> built_article a -> built_child c).
Proof.
  apply inside_mutind.
  - intros s cs c Hc Hin B. apply built_local in B as [_ B]. eauto.
  - intros s cs d c Hc Hin _ IH B. apply built_local in B as [_ B]. eauto.
  - intros c s _ IH B. inversion B; auto.
  - intros c a _ IH B. inversion B; auto.
  - intros a p Hp B. apply built_article_local in B as [_ B]. constructor. auto.
  - intros a p c Hp _ IH B. apply built_article_local in B as [_ B]. auto.
Qed.

(** * Lookup *)
Lemma str_opt_eqb_eq a b : opt_eqb str_eqb a b = true <-> a = b.
Proof.
  destruct a, b; cbn; try (split; congruence). rewrite str_eqb_eq. split; congruence.
Qed.

Lemma dict_lookup_ok {A} (ident : A -> option pystr) l k c : dict_lookup ident l k = Ok c ->
  In c l /\ ident c = k.
Proof.
  unfold dict_lookup. destruct (find _ _) as [x|] eqn:F; [|discriminate]. intros [= <-].
  apply find_some in F as [F1 F2]. apply in_rev in F1. apply str_opt_eqb_eq in F2. auto.
Qed.
Lemma dict_lookup_err {A} (ident : A -> option pystr) l k e : dict_lookup ident l k = Err e ->
  e = KeyError /\ forall c, In c l -> ident c <> k.
Proof.
  unfold dict_lookup. destruct (find _ _) as [x|] eqn:F; [discriminate|]. intros [= <-]. split; [reflexivity|].
  intros c Hc E. apply in_rev in Hc. apply (find_none _ _ F) in Hc. cbn in Hc.
  apply str_opt_eqb_eq in E. congruence.
Qed.
Lemma dict_lookup_unique {A} (ident : A -> option pystr) l c :
  In c l -> (forall d, In d l -> ident d = ident c -> d = c) -> dict_lookup ident l (ident c) = Ok c.
Proof.
  intros Hc U. destruct (dict_lookup ident l (ident c)) as [d|e] eqn:E.
  - apply dict_lookup_ok in E as [H1 H2]. now rewrite (U d H1 H2).
  - apply dict_lookup_err in E as [_ N]. now apply N in Hc.
Qed.

Lemma act_articles_in a x : In x (act_articles a) <-> In (AArticle x) (act_children a).
Proof.
  unfold act_articles. rewrite in_flat_map. split.
  - intros ([e|y] & H & K); cbn in K; [destruct K|]. destruct K as [->|[]]. exact H.
  - intros H. exists (AArticle x). split; [exact H|now left].
Qed.

Lemma point_class c : class_of c = TSae KNumericPoint \/ class_of c = TSae KAlphabeticPoint ->
  exists p, c = ChSae p /\ (s_kind p = KNumericPoint \/ s_kind p = KAlphabeticPoint).
Proof. destruct c as [p| | |]; cbn; intros [H|H]; try discriminate; exists p; split; auto; [left|right]; congruence. Qed.

Lemma at_reference_sound a r l : built_act a -> single_reference a r ->
  act_at_reference a r = Ok l -> exists c, l = [c] /\ located a (absolute a r) c.
Proof.
  intros B (HA & NR & Hart & Hsub) H. destruct r as [act art par pt sp]. unfold absolute, with_act. cbn in *.
  unfold no_ranges, components in NR. cbn in NR. inversion NR as [|? ? _ N1]; inversion N1 as [|? ? S1 N2];
  inversion N2 as [|? ? S2 N3]; inversion N3 as [|? ? S3 N4]; inversion N4 as [|? ? S4 _]; clear NR N1 N2 N3 N4; subst.
  unfold act_at_reference in H. cbn in H. apply bind_ok in H as (_ & _ & H).
  destruct art as [|ai|]; [congruence| |contradiction]. apply bind_ok in H as (x & Hx & H).
  unfold act_article in Hx. apply dict_lookup_ok in Hx as [Hx [= <-]]. rewrite act_articles_in in Hx.
  destruct (B x Hx) as [Bx Px]. apply built_article_local in Bx as [_ Bx].
  destruct (is_none par && is_none pt && is_none sp) eqn:E.
  - injection H as <-. exists (ChArticle x). split; [reflexivity|].
    destruct par, pt, sp; try discriminate. now constructor.
  - unfold article_at_reference in H. cbn in H. destruct par as [|pi|]; [| |contradiction].
    all: apply bind_ok in H as (p & Hp & H); apply dict_lookup_ok in Hp as [Hp Ip]; cbn in Ip.
    all: assert (Kp : s_kind p = KParagraph) by (unfold paragraphs_only in Px; rewrite Forall_forall in Px; now apply Px).
    all: destruct (built_local p (Bx p Hp)) as [Wp Bp].
    + destruct pt as [|pi|]; [rewrite Hsub in E by reflexivity; discriminate| |contradiction].
      unfold sae_at_reference in H. rewrite Kp in H. unfold paragraph_at_reference in H. cbn in H.
      apply bind_ok in H as (q & Hq & H). unfold paragraph_point, sae_child in Hq.
      destruct (s_children p) as [cs|] eqn:Ec; [|discriminate].
      apply bind_ok in Hq as (c & Hc & Hq). apply dict_lookup_ok in Hc as [Hc Ic].
      destruct c as [q'| | |]; try discriminate.
      assert (q' = q /\ (s_kind q = KNumericPoint \/ s_kind q = KAlphabeticPoint)) as [-> Kq].
      { destruct (s_kind q') eqn:K; try discriminate; injection Hq as ->; auto. }
      cbn in Ic. destruct sp as [|si|]; [| |contradiction].
      * injection H as <-. exists (ChSae q). split; [reflexivity|]. refine (eq_rect _ (fun o => located a (mk_ref _ _ (opt_part o) _ _) _) (loc_point a x p q cs _ Hx Hp Ec Hc Kq Ic) _ Ip).
      * unfold point_at_reference in H. cbn in H. apply bind_ok in H as (c & Hs & H). injection H as <-.
        exists c. split; [reflexivity|]. unfold point_subpoint, sae_child in Hs.
        destruct (s_children q) as [ds|] eqn:Ed; [|discriminate].
        apply bind_ok in Hs as (d & Hd & Hs). apply dict_lookup_ok in Hd as [Hd Id].
        assert (d = c /\ exists z, c = ChSae z) as [-> [z ->]].
        { destruct Kq as [Kq|Kq]; rewrite Kq in Hs; destruct d as [z| | |]; cbn in Hs;
            try discriminate; destruct (s_kind z); try discriminate; injection Hs as <-; eauto. }
        refine (eq_rect _ (fun o => located a (mk_ref _ _ (opt_part o) _ _) _) (loc_subpoint a x p q z cs ds _ _ Hx Hp Ec Hc Kq Ic Ed Hd Id) _ Ip).
    + destruct pt as [|qi|]; [| |contradiction].
      * injection H as <-. rewrite Hsub by reflexivity. exists (ChSae p). split; [reflexivity|]. now constructor.
      * unfold sae_at_reference in H. rewrite Kp in H. unfold paragraph_at_reference in H. cbn in H.
        apply bind_ok in H as (q & Hq & H). unfold paragraph_point, sae_child in Hq.
        destruct (s_children p) as [cs|] eqn:Ec; [|discriminate].
        apply bind_ok in Hq as (c & Hc & Hq). apply dict_lookup_ok in Hc as [Hc Ic].
        destruct c as [q'| | |]; try discriminate.
        assert (q' = q /\ (s_kind q = KNumericPoint \/ s_kind q = KAlphabeticPoint)) as [-> Kq].
        { destruct (s_kind q') eqn:K; try discriminate; injection Hq as ->; auto. }
        cbn in Ic. destruct sp as [|si|]; [| |contradiction].
        -- injection H as <-. exists (ChSae q). split; [reflexivity|]. refine (eq_rect _ (fun o => located a (mk_ref _ _ (opt_part o) _ _) _) (loc_point a x p q cs _ Hx Hp Ec Hc Kq Ic) _ Ip).
        -- unfold point_at_reference in H. cbn in H. apply bind_ok in H as (c & Hs & H). injection H as <-.
           exists c. split; [reflexivity|]. unfold point_subpoint, sae_child in Hs.
           destruct (s_children q) as [ds|] eqn:Ed; [|discriminate].
           apply bind_ok in Hs as (d & Hd & Hs). apply dict_lookup_ok in Hd as [Hd Id].
           assert (d = c /\ exists z, c = ChSae z) as [-> [z ->]].
           { destruct Kq as [Kq|Kq]; rewrite Kq in Hs; destruct d as [z| | |]; cbn in Hs;
               try discriminate; destruct (s_kind z); try discriminate; injection Hs as <-; eauto. }
           refine (eq_rect _ (fun o => located a (mk_ref _ _ (opt_part o) _ _) _) (loc_subpoint a x p q z cs ds _ _ Hx Hp Ec Hc Kq Ic Ed Hd Id) _ Ip).
Qed.

(* every failure is a KeyError *)
Lemma at_reference_error a r e : built_act a -> single_reference a r ->
  act_at_reference a r = Err e -> e = KeyError.
Proof.
  intros B (HA & NR & Hart & Hsub) H. destruct r as [act art par pt sp]. cbn in *.
  unfold no_ranges, components in NR. cbn in NR. inversion NR as [|? ? _ N1]; inversion N1 as [|? ? S1 N2];
  inversion N2 as [|? ? S2 N3]; inversion N3 as [|? ? S3 N4]; inversion N4 as [|? ? S4 _]; clear NR N1 N2 N3 N4; subst.
  unfold act_at_reference in H. cbn in H.
  assert (Y : (match act with None => true | Some x => str_eqb x (act_identifier a) end) = true)
    by (destruct HA as [->| ->]; [reflexivity|apply str_eqb_refl]).
  rewrite Y in H. cbn [assert_ bind] in H.
  destruct art as [|ai|]; [congruence| |contradiction].
  destruct (act_article a ai) as [x|e'] eqn:Ex; [|injection H as <-; now apply dict_lookup_err in Ex].
  cbn [bind] in H. unfold act_article in Ex. apply dict_lookup_ok in Ex as [Hx [= <-]]. rewrite act_articles_in in Hx.
  destruct (B x Hx) as [Bx Px]. apply built_article_local in Bx as [_ Bx].
  destruct (is_none par && is_none pt && is_none sp) eqn:E; [discriminate|].
  unfold article_at_reference in H. cbn in H.
  assert (G : forall p, In p (a_paragraphs x) -> forall pi, pt = RId pi ->
            sae_at_reference p (mk_ref act (RId (a_identifier x)) par pt sp) = Err e -> e = KeyError).
  { clear H. intros p Hp qi -> H.
    assert (Kp : s_kind p = KParagraph) by (unfold paragraphs_only in Px; rewrite Forall_forall in Px; now apply Px).
    destruct (built_local p (Bx p Hp)) as [Wp Bp].
    unfold sae_at_reference in H. rewrite Kp in H. unfold paragraph_at_reference in H. cbn in H.
    unfold paragraph_point, sae_child in H.
    destruct (s_children p) as [cs|] eqn:Ec; [|cbn in H; congruence].
    destruct (dict_lookup child_identifier cs (Some qi)) as [c|e'] eqn:Ed; cbn [bind] in H;
      [|injection H as <-; now apply dict_lookup_err in Ed].
    apply dict_lookup_ok in Ed as [Hc _]. destruct c as [q| | |]; try (cbn in H; congruence).
    assert (Q : (s_kind q = KNumericPoint \/ s_kind q = KAlphabeticPoint) /\
                (match sp with RNone => Ok [ChSae q] | _ => point_at_reference q (mk_ref act (RId (a_identifier x)) par (RId qi) sp) end) = Err e \/ e = KeyError).
    { destruct (s_kind q) eqn:K; cbn [bind] in H; auto; try (right; congruence). }
    destruct Q as [[Kq HQ]|Q]; [|exact Q]. destruct sp as [|si|]; [discriminate| |contradiction].
    unfold point_at_reference in HQ. cbn in HQ. unfold point_subpoint, sae_child in HQ.
    assert (Bq : built_sae q) by (specialize (Bp cs (ChSae q) eq_refl Hc); now inversion Bp).
    destruct (built_local q Bq) as [Wq _].
    destruct (s_children q) as [ds|] eqn:Eds; [|cbn in HQ; congruence].
    destruct (dict_lookup child_identifier ds (Some si)) as [d|e'] eqn:Ed; cbn [bind] in HQ;
      [|injection HQ as <-; now apply dict_lookup_err in Ed].
    apply dict_lookup_ok in Ed as [Hd _]. pose proof (wf_allowed _ Wq ds d Eds Hd) as M.
    destruct Kq as [Kq|Kq]; rewrite Kq in *; inversion M; repeat match goal with Z : TSae _ = class_of d |- _ => rewrite <- Z in HQ; clear Z end; discriminate. }
  destruct par as [|pi|]; [| |contradiction].
  all: destruct (dict_lookup s_identifier (a_paragraphs x) _) as [p|e'] eqn:Ep; cbn [bind] in H;
    [|injection H as <-; now apply dict_lookup_err in Ep].
  all: apply dict_lookup_ok in Ep as [Hp _]; destruct pt as [|qi|]; [discriminate| |contradiction]; eapply G; eauto.
Qed.

Lemma at_reference_complete a r c : built_act a -> unique_identifiers a ->
  located a r c -> act_at_reference a r = Ok [c].
Proof.
  intros B [U1 U2 U3 U4] L.
  assert (HA : forall x, In (AArticle x) (act_children a) -> act_article a (a_identifier x) = Ok x).
  { intros x Hx. unfold act_article. apply (dict_lookup_unique (fun x => Some (a_identifier x))).
    - now apply act_articles_in.
    - intros d Hd [= E]. apply act_articles_in in Hd. auto. }
  assert (HK : forall x p, In (AArticle x) (act_children a) -> In p (a_paragraphs x) -> s_kind p = KParagraph).
  { intros x p Hx Hp. destruct (B x Hx) as [_ Px]. unfold paragraphs_only in Px. rewrite Forall_forall in Px. auto. }
  assert (HB : forall x p, In (AArticle x) (act_children a) -> In p (a_paragraphs x) -> built_sae p).
  { intros x p Hx Hp. destruct (B x Hx) as [Bx _]. apply built_article_local in Bx as [_ Bx]. auto. }
  assert (HP : forall x p, In (AArticle x) (act_children a) -> In p (a_paragraphs x) ->
            dict_lookup s_identifier (a_paragraphs x) (part_key (opt_part (s_identifier p))) = Ok p).
  { intros x p Hx Hp. replace (part_key (opt_part (s_identifier p))) with (s_identifier p) by (destruct (s_identifier p); reflexivity).
    apply dict_lookup_unique; eauto. }
  assert (HS : forall s cs c i, unique_children s -> s_children s = Some cs -> In c cs -> child_identifier c = Some i ->
            sae_child s i = Ok c).
  { intros s cs d i U E Hd I. unfold sae_child. rewrite E, <- I. apply dict_lookup_unique; [exact Hd|].
    intros d' Hd' E'. eapply U; eauto. congruence. }
  unfold act_at_reference.
  inversion L as [x Hx|x p i Hx Hp Hi|x p q cs i Hx Hp Hcs Hq Kq Hi|x p q z cs ds i j Hx Hp Hcs Hq Kq Hi Hds Hz Hj]; subst; cbn;
    rewrite str_eqb_refl; cbn [assert_ bind]; rewrite HA by assumption; cbn [bind].
  - reflexivity.
  - unfold article_at_reference. cbn. specialize (HP x p Hx Hp). rewrite Hi in HP. cbn in HP. rewrite HP. reflexivity.
  - assert (E : is_none (opt_part (s_identifier p)) && false && true = false) by (destruct (is_none _); reflexivity).
    rewrite E. unfold article_at_reference. cbn. specialize (HP x p Hx Hp).
    assert (R : (par <- dict_lookup s_identifier (a_paragraphs x) (part_key (opt_part (s_identifier p))) ;;
                 sae_at_reference par (mk_ref (Some (act_identifier a)) (RId (a_identifier x)) (opt_part (s_identifier p)) (RId i) RNone)) = Ok [ChSae q]).
    { rewrite HP. cbn [bind]. unfold sae_at_reference. rewrite (HK x p Hx Hp). unfold paragraph_at_reference. cbn.
      unfold paragraph_point. rewrite (HS p cs (ChSae q) i) by eauto. cbn [bind]. destruct Kq as [-> | ->]; reflexivity. }
    destruct (opt_part (s_identifier p)) eqn:O; [exact R|exact R|destruct (s_identifier p); discriminate].
  - assert (E : is_none (opt_part (s_identifier p)) && false && false = false) by (destruct (is_none _); reflexivity).
    rewrite E. unfold article_at_reference. cbn. specialize (HP x p Hx Hp).
    assert (R : (par <- dict_lookup s_identifier (a_paragraphs x) (part_key (opt_part (s_identifier p))) ;;
                 sae_at_reference par (mk_ref (Some (act_identifier a)) (RId (a_identifier x)) (opt_part (s_identifier p)) (RId i) (RId j))) = Ok [ChSae z]).
    { rewrite HP. cbn [bind]. unfold sae_at_reference. rewrite (HK x p Hx Hp). unfold paragraph_at_reference. cbn.
      unfold paragraph_point. rewrite (HS p cs (ChSae q) i) by eauto. cbn [bind].
      assert (Q : point_at_reference q (mk_ref (Some (act_identifier a)) (RId (a_identifier x)) (opt_part (s_identifier p)) (RId i) (RId j)) = Ok [ChSae z]).
      { unfold point_at_reference, point_subpoint. cbn. rewrite (HS q ds (ChSae z) j) by eauto. cbn [bind].
        assert (Bq : built_sae q).
        { destruct (built_local p (HB x p Hx Hp)) as [_ Bp]. specialize (Bp cs (ChSae q) Hcs Hq). now inversion Bp. }
        destruct (built_local q Bq) as [Wq _]. pose proof (wf_allowed _ Wq ds (ChSae z) Hds Hz) as M. cbn in M.
        destruct Kq as [K|K]; rewrite K in *; inversion M as [Z|Z|Z| | | | | | |]; cbn; repeat match goal with Z : _ = s_kind z |- _ => rewrite <- Z; clear Z end; reflexivity. }
      destruct Kq as [-> | ->]; exact Q. }
    destruct (opt_part (s_identifier p)) eqn:O; [exact R|exact R|destruct (s_identifier p); discriminate].
Qed.

(* ranges: the siblings whose identifiers are in the range, in order *)
Lemma cut_picks {E} (ident : E -> option pystr) l lo hi :
  decimal_id lo -> decimal_id hi -> (forall e i, In e l -> ident e = Some i -> decimal_id i) ->
  exists r, cut_by_identifier ident l lo hi = Ok r /\ picks (fun e => id_between lo hi (ident e)) l r.
Proof.
  intros H1 H2 H3. destruct (cut_spec ident lo hi l H1 H2 H3) as (r & E1 & P). exists r. split; [exact E1|].
  assert (Q : forall e, (exists i, ident e = Some i /\ not_after lo i /\ not_after i hi) <-> id_between lo hi (ident e)).
  { intros e. unfold id_between, between. destruct (ident e); split.
    - intros (i & [= ->] & H). exact H.
    - intros H. eauto.
    - intros (i & H & _). discriminate.
    - intros []. }
  clear -P Q. induction P; constructor; auto; rewrite <- ?Q; auto.
Qed.
Lemma picks_map {A B} (f : A -> B) (P : A -> Prop) (Q : B -> Prop) l r :
  (forall x, P x <-> Q (f x)) -> picks P l r -> picks Q (map f l) (map f r).
Proof. intros H. induction 1; cbn; constructor; auto; rewrite <- ?H; auto. Qed.

Lemma article_range a lo hi : decimal_id lo -> decimal_id hi ->
  (forall x, In (AArticle x) (act_children a) -> decimal_id (a_identifier x)) ->
  exists l, act_at_reference a (mk_ref (Some (act_identifier a)) (RRange lo hi) RNone RNone RNone) = Ok (map ChArticle l) /\
    picks (fun x => between lo (a_identifier x) hi) (act_articles a) l.
Proof.
  intros H1 H2 H3. destruct (cut_picks (fun x => Some (a_identifier x)) (act_articles a) lo hi H1 H2) as (l & E & P).
  - intros e i He [= <-]. apply act_articles_in in He. auto.
  - exists l. split; [|exact P]. unfold act_at_reference. cbn. rewrite str_eqb_refl. cbn. rewrite E. reflexivity.
Qed.
Lemma paragraph_range a x lo hi pt sp : built_act a -> unique_identifiers a -> In (AArticle x) (act_children a) ->
  decimal_id lo -> decimal_id hi ->
  (forall p i, In p (a_paragraphs x) -> s_identifier p = Some i -> decimal_id i) ->
  exists l, act_at_reference a (mk_ref (Some (act_identifier a)) (RId (a_identifier x)) (RRange lo hi) pt sp) = Ok (map ChSae l) /\
    picks (fun p => id_between lo hi (s_identifier p)) (a_paragraphs x) l.
Proof.
  intros B U Hx H1 H2 H3. destruct (cut_picks s_identifier (a_paragraphs x) lo hi H1 H2 H3) as (l & E & P).
  exists l. split; [|exact P]. unfold act_at_reference. cbn. rewrite str_eqb_refl. cbn.
  assert (HA : act_article a (a_identifier x) = Ok x).
  { unfold act_article. apply (dict_lookup_unique (fun x => Some (a_identifier x))).
    - now apply act_articles_in.
    - intros d Hd [= E']. apply act_articles_in in Hd. eapply un_articles; eauto. }
  rewrite HA. cbn [bind]. unfold article_at_reference. cbn. rewrite E. reflexivity.
Qed.
Lemma point_range a x p cs lo hi sp : built_act a -> unique_identifiers a -> In (AArticle x) (act_children a) ->
  In p (a_paragraphs x) -> s_children p = Some cs ->
  decimal_id lo -> decimal_id hi ->
  (forall c i, In c cs -> child_identifier c = Some i -> decimal_id i) ->
  exists l, act_at_reference a (mk_ref (Some (act_identifier a)) (RId (a_identifier x)) (opt_part (s_identifier p)) (RRange lo hi) sp) = Ok l /\
    picks (fun c => id_between lo hi (child_identifier c)) cs l.
Proof.
  intros B [U1 U2 U3 U4] Hx Hp Hcs H1 H2 H3. destruct (cut_picks child_identifier cs lo hi H1 H2 H3) as (l & E & P).
  exists l. split; [|exact P]. unfold act_at_reference. cbn. rewrite str_eqb_refl. cbn.
  assert (HA : act_article a (a_identifier x) = Ok x).
  { unfold act_article. apply (dict_lookup_unique (fun x => Some (a_identifier x))).
    - now apply act_articles_in.
    - intros d Hd [= E']. apply act_articles_in in Hd. eapply U1; eauto. }
  rewrite HA. cbn [bind].
  replace (is_none (opt_part (s_identifier p)) && false && is_none sp) with false by (destruct (is_none _); reflexivity).
  destruct (B x Hx) as [Bx Px]. apply built_article_local in Bx as [_ Bx].
  assert (HK : s_kind p = KParagraph) by (unfold paragraphs_only in Px; rewrite Forall_forall in Px; auto).
  assert (HP : dict_lookup s_identifier (a_paragraphs x) (part_key (opt_part (s_identifier p))) = Ok p).
  { replace (part_key (opt_part (s_identifier p))) with (s_identifier p) by (destruct (s_identifier p); reflexivity).
    apply dict_lookup_unique; eauto. }
  unfold article_at_reference. cbn.
  assert (R : (par <- dict_lookup s_identifier (a_paragraphs x) (part_key (opt_part (s_identifier p))) ;;
               sae_at_reference par (mk_ref (Some (act_identifier a)) (RId (a_identifier x)) (opt_part (s_identifier p)) (RRange lo hi) sp)) = Ok l).
  { rewrite HP. cbn [bind]. unfold sae_at_reference. rewrite HK. unfold paragraph_at_reference. cbn. rewrite Hcs.
    destruct (built_local p (Bx p Hp)) as [W _]. destruct cs; [|exact E]. now apply wf_nonempty in W. }
  destruct (opt_part (s_identifier p)) eqn:O; [exact R|exact R|destruct (s_identifier p); discriminate].
Qed.
Lemma subpoint_range a x p cs q ds lo hi i : built_act a -> unique_identifiers a -> In (AArticle x) (act_children a) ->
  In p (a_paragraphs x) -> s_children p = Some cs -> In (ChSae q) cs ->
  s_kind q = KNumericPoint \/ s_kind q = KAlphabeticPoint -> s_identifier q = Some i -> s_children q = Some ds ->
  decimal_id lo -> decimal_id hi ->
  (forall c i, In c ds -> child_identifier c = Some i -> decimal_id i) ->
  exists l, act_at_reference a (mk_ref (Some (act_identifier a)) (RId (a_identifier x)) (opt_part (s_identifier p)) (RId i) (RRange lo hi)) = Ok l /\
    picks (fun c => id_between lo hi (child_identifier c)) ds l.
Proof.
  intros B U Hx Hp Hcs Hq Kq Hi Hds H1 H2 H3. destruct (cut_picks child_identifier ds lo hi H1 H2 H3) as (l & E & P).
  exists l. split; [|exact P].
  assert (L : located a (mk_ref (Some (act_identifier a)) (RId (a_identifier x)) (opt_part (s_identifier p)) (RId i) RNone) (ChSae q))
    by (eapply loc_point; eauto).
  pose proof (at_reference_complete a _ _ B U L) as C. unfold act_at_reference in *. cbn in *.
  rewrite str_eqb_refl in *. cbn [assert_ bind] in *.
  destruct (act_article a (a_identifier x)) as [x'|]; [|discriminate]. cbn [bind] in *.
  replace (is_none (opt_part (s_identifier p)) && false && false) with false by (destruct (is_none _); reflexivity).
  replace (is_none (opt_part (s_identifier p)) && false && true) with false in C by (destruct (is_none _); reflexivity).
  unfold article_at_reference in *. cbn in *.
  assert (W : well_formed q).
  { destruct (B x Hx) as [Bx Px]. apply built_article_local in Bx as [_ Bx].
    destruct (built_local p (Bx p Hp)) as [_ Bp]. specialize (Bp cs (ChSae q) Hcs Hq). inversion Bp; subst.
    now apply built_local. }
  assert (Q : point_at_reference q (mk_ref (Some (act_identifier a)) (RId (a_identifier x)) (opt_part (s_identifier p)) (RId i) (RRange lo hi)) = Ok l).
  { unfold point_at_reference. cbn. rewrite Hds. destruct ds; [|exact E]. now apply wf_nonempty in W. }
  assert (G : forall k, (par <- dict_lookup s_identifier (a_paragraphs x') k ;;
       sae_at_reference par (mk_ref (Some (act_identifier a)) (RId (a_identifier x)) (opt_part (s_identifier p)) (RId i) RNone)) = Ok [ChSae q] ->
       (par <- dict_lookup s_identifier (a_paragraphs x') k ;;
       sae_at_reference par (mk_ref (Some (act_identifier a)) (RId (a_identifier x)) (opt_part (s_identifier p)) (RId i) (RRange lo hi))) = Ok l).
  { intros k Hk. destruct (dict_lookup _ _ k) as [p'|]; [|discriminate]. cbn [bind] in *.
    unfold sae_at_reference in *. destruct (s_kind p'); try discriminate.
    unfold paragraph_at_reference in *. cbn in *. destruct (paragraph_point p' i) as [q'|]; [|discriminate].
      cbn [bind] in *. injection Hk as ->. exact Q. }
  clear -G C. destruct (s_identifier p); apply G; exact C.
Qed.
Lemma at_reference_absolute a r : r_act r = None \/ r_act r = Some (act_identifier a) ->
  act_at_reference a r = act_at_reference a (absolute a r).
Proof.
  intros H. unfold act_at_reference, absolute, with_act. destruct r as [act art par pt sp]. cbn in *.
  rewrite str_eqb_refl.
  replace (match act with None => true | Some x => str_eqb x (act_identifier a) end) with true
    by (destruct H as [->| ->]; [reflexivity|now rewrite str_eqb_refl]).
  cbn [assert_ bind]. reflexivity.
Qed.
Lemma at_reference_exact a r : built_act a -> unique_identifiers a -> single_reference a r ->
  (exists c, act_at_reference a r = Ok [c] /\ located a (absolute a r) c) \/
  (act_at_reference a r = Err KeyError /\ forall c, ~ located a (absolute a r) c).
Proof.
  intros B U S. destruct (act_at_reference a r) as [l|e] eqn:E.
  - left. destruct (at_reference_sound a r l B S E) as (c & -> & L). eauto.
  - right. rewrite (at_reference_error a r e B S E) in *. split; [reflexivity|]. intros c L.
    apply (at_reference_complete a _ _ B U) in L. rewrite <- at_reference_absolute in L by apply S. congruence.
Qed.
