(* The values of different acts are different. *)
From Coq Require Import Lia Floats.SpecFloat.
From Verif Require Import PyBase PyBaseFacts LineModel DateModel RefModel TreeModel TreeSpec TreeProofs
  D2oModel D2oSpec D2oHun D2oHunSpec D2oHunProofs D2oHunProofs2.

Lemma opt_inj {A} (f : A -> value) (o p : option A) : (forall x, f x <> VNone) -> (forall x y, f x = f y -> x = y) ->
  opt_value f o = opt_value f p -> o = p.
Proof.
  intros N I. destruct o, p; cbn; intros E; [f_equal; auto|elim (N _ E)|symmetry in E; elim (N _ E)|reflexivity].
Qed.
Lemma opt_str_inj o p : opt_value str_value o = opt_value str_value p -> o = p.
Proof. apply opt_inj; [discriminate|]. unfold str_value. congruence. Qed.
Lemma map_inj {A B} (f : A -> B) l : forall m, (forall x y, In x l -> In y m -> f x = f y -> x = y) -> map f l = map f m -> l = m.
Proof.
  induction l as [|x l IH]; intros [|y m] I E; try discriminate; [reflexivity|]. cbn in E. injection E as E1 E2. f_equal.
  - apply I; [left; reflexivity|left; reflexivity|exact E1].
  - apply IH; [|exact E2]. intros a b Ia Ib. apply I; right; assumption.
Qed.
Lemma tuple_inj {A} (f : A -> value) l m : (forall x y, f x = f y -> x = y) -> tuple_value f l = tuple_value f m -> l = m.
Proof. intros I E. injection E as E. apply (map_inj f l m); [|exact E]. intros x y _ _. apply I. Qed.

Lemma line_inj l m : line_value l = line_value m -> l = m.
Proof.
  destruct l as [p r], m as [q s]. intros E. unfold line_value in E. cbn [l_parts l_margin_right] in E. injection E as E1 E2.
  f_equal; [|exact E2]. revert E1. apply map_inj. intros [a b c] [a' b' c'] _ _ E. unfold part_value in E. cbn in E. congruence.
Qed.
Lemma date_inj a b : date_value a = date_value b -> a = b.
Proof. destruct a, b. unfold date_value. cbn. congruence. Qed.
Lemma rpart_inj p q : rpart_value p = rpart_value q -> p = q.
Proof. destruct p, q; cbn; congruence. Qed.
Lemma reference_inj a b : reference_value a = reference_value b -> a = b.
Proof.
  destruct a as [? ? ? ? ?], b as [? ? ? ? ?]. unfold reference_value. cbn -[opt_value rpart_value]. intros E. injection E as E1 E2 E3 E4 E5.
  f_equal; [apply opt_str_inj; exact E1|apply rpart_inj; assumption..].
Qed.
Lemma combo_inj a b : combo_value a = combo_value b -> a = b.
Proof. destruct a as [p s], b as [q t]. unfold combo_value. cbn. intros E. injection E as E1 E2. subst. destruct p, q; try reflexivity; discriminate E1. Qed.
Lemma sref_inj a b : sref_value a = sref_value b -> a = b.
Proof.
  destruct a as [? ? ? ? ? ? ?], b as [? ? ? ? ? ? ?]. unfold sref_value. cbn -[opt_value]. intros E. injection E as E1 E2 E3 E4 E5 E6 E7.
  f_equal; try (apply opt_str_inj; assumption). revert E7. apply opt_inj; [discriminate|exact combo_inj].
Qed.
Lemma any_inj a b : any_value a = any_value b -> a = b.
Proof. destruct a, b; cbn; intros E; f_equal; try (apply reference_inj; exact E); try (apply sref_inj; exact E); discriminate E. Qed.
Lemma enforcement_inj a b : enforcement_value a = enforcement_value b -> a = b.
Proof. destruct a, b; cbn; intros E; try discriminate E; try congruence. f_equal. apply date_inj. exact E. Qed.
Lemma semantic_inj a b : semantic_value a = semantic_value b -> a = b.
Proof.
  destruct a, b; cbn [semantic_value]; intros E; try discriminate E; injection E; intros; subst; f_equal;
    try (apply any_inj; assumption); try (apply reference_inj; assumption); try (apply enforcement_inj; assumption); try (apply opt_str_inj; assumption).
  - eapply opt_inj; [| |eassumption]; [discriminate|exact reference_inj].
  - eapply opt_inj; [| |eassumption]; [discriminate|exact date_inj].
  - apply reference_inj. unfold reference_value. congruence.
  - apply reference_inj. unfold reference_value. congruence.
Qed.
Lemma outgoing_inj a b : outgoing_value a = outgoing_value b -> a = b.
Proof. destruct a as [? ? ?], b as [? ? ?]. unfold outgoing_value. cbn -[reference_value]. intros E. injection E; intros; subst. f_equal. apply reference_inj. unfold reference_value. congruence. Qed.
Lemma abbreviation_inj a b : abbreviation_value a = abbreviation_value b -> a = b.
Proof. destruct a, b. unfold abbreviation_value. cbn. congruence. Qed.
Lemma kind_name_inj a b : kind_name a = kind_name b -> a = b.
Proof. destruct a, b; try reflexivity; discriminate. Qed.
Lemma struct_name_inj a b : struct_name a = struct_name b -> a = b.
Proof. destruct a, b; try reflexivity; discriminate. Qed.
Lemma struct_inj a b : only_parts_special a -> only_parts_special b -> struct_value a = struct_value b -> a = b.
Proof.
  destruct a as [k i t s], b as [k' i' t' s']. unfold only_parts_special, struct_value. cbn [se_kind se_identifier se_title se_special].
  intros O O' E. injection E as Ek Ei Et Es. apply struct_name_inj in Ek. subst k' i' t'. f_equal.
  destruct k; try (destruct O as [O|O], O' as [O'|O']; congruence).
Qed.

Definition specials_of (c : child) : Prop := match c with ChStruct e => only_parts_special e | _ => True end.

Lemma elements_inj :
  (forall s, built_sae s -> (forall c, inside_sae c s -> specials_of c) ->
     forall s', (forall c, inside_sae c s' -> specials_of c) -> sae_value s = sae_value s' -> s = s') /\
  (forall c, built_child c -> specials_of c -> (forall d, inside_child_of d c -> specials_of d) ->
     forall c', specials_of c' -> (forall d, inside_child_of d c' -> specials_of d) -> child_value c = child_value c' -> c = c') /\
  (forall a, built_article a -> (forall c, inside_article c a -> specials_of c) ->
     forall a', (forall c, inside_article c a' -> specials_of c) -> article_value a = article_value a' -> a = a').
Proof.
  apply built_mutind; cbn beta.
  - intros k i t n cs w m s BC IH E SO s' SO' V. destruct (proj1 (new_sae_ok _ _ _ _ _ _ _ _) E) as (-> & _).
    destruct s' as [k' i' t' n' cs' w' m']. cbn [sae_value] in V. injection V as Vk Vi Vt Vn Vc Vw Va Vo Vs.
    apply kind_name_inj in Vk. apply opt_str_inj in Vi, Vt, Vn, Vw. subst k' i' t' n' w'. f_equal.
    + destruct cs as [l|], cs' as [l'|]; try discriminate; [|reflexivity]. injection Vc as Vc. f_equal. revert Vc. apply map_inj.
      intros x y Ix Iy. apply (IH l x eq_refl Ix).
      * exact (SO _ (inside_child (mk_sae k i t n (Some l) w m) l x eq_refl Ix)).
      * intros d D. exact (SO _ (inside_deeper (mk_sae k i t n (Some l) w m) l x d eq_refl Ix D)).
      * exact (SO' _ (inside_child (mk_sae k i t n (Some l') w m') l' y eq_refl Iy)).
      * intros d D. exact (SO' _ (inside_deeper (mk_sae k i t n (Some l') w m') l' y d eq_refl Iy D)).
    + destruct m as [a o d], m' as [a' o' d']. cbn [m_abbreviations m_outgoing m_semantic] in *. f_equal.
      * revert Va. apply opt_inj; [discriminate|]. intros x y. apply tuple_inj. exact abbreviation_inj.
      * revert Vo. apply opt_inj; [discriminate|]. intros x y. apply tuple_inj. exact outgoing_inj.
      * revert Vs. apply opt_inj; [discriminate|]. intros x y. apply tuple_inj. exact semantic_inj.
  - intros s _ IH _ SO c' _ SO' V. destruct c' as [s'|[]|ls|e].
    + f_equal. apply IH; [|intros c D; apply SO'; constructor; exact D|exact V]. intros c D. apply SO. constructor. exact D.
    + destruct s as [k]. destruct k; discriminate V.
    + destruct s as [k]. destruct k; discriminate V.
    + destruct s as [k]. cbn in V. unfold struct_value in V. destruct k, (se_kind e); discriminate V.
  - intros a _ IH _ SO c' _ SO' V. destruct c' as [[k]|a'|ls|e].
    + destruct a. destruct k; discriminate V.
    + f_equal. apply IH; [|intros c D; apply SO'; constructor; exact D|exact V]. intros c D. apply SO. constructor. exact D.
    + destruct a. discriminate V.
    + destruct a. cbn in V. unfold struct_value in V. destruct (se_kind e); discriminate V.
  - intros ls _ _ c' _ _ V. destruct c' as [[k]|[]|ls'|e].
    + destruct k; discriminate V.
    + discriminate V.
    + f_equal. cbn [child_value] in V. injection V as V. revert V. apply map_inj. intros x y _ _. apply line_inj.
    + cbn in V. unfold struct_value in V. destruct (se_kind e); discriminate V.
  - intros e S _ c' S' _ V. destruct c' as [[k]|[]|ls'|e'].
    + cbn in V. unfold struct_value in V. destruct k, (se_kind e); discriminate V.
    + cbn in V. unfold struct_value in V. destruct (se_kind e); discriminate V.
    + cbn in V. unfold struct_value in V. destruct (se_kind e); discriminate V.
    + f_equal. apply struct_inj; assumption.
  - intros i t ps a BP IH E SO a' SO' V. destruct (proj1 (new_article_ok _ _ _ _) E) as (-> & _). destruct a' as [i' t' ps'].
    cbn [article_value] in V. injection V as Vi Vp Vt. apply opt_str_inj in Vt. subst i' t'. f_equal. revert Vp. apply map_inj.
    intros x y Ix Iy. apply (IH x Ix).
    + intros c D. exact (SO _ (inside_paragraph_deeper (mk_article i t ps) x c Ix D)).
    + intros c D. exact (SO' _ (inside_paragraph_deeper (mk_article i t ps') y c Iy D)).
Qed.

Lemma act_inj a b : built_act a -> real_specials a -> real_specials b -> act_value a = act_value b -> a = b.
Proof.
  destruct a as [i d s p cs], b as [i' d' s' p' cs']. intros B (RS & RI) (RS' & RI') V. unfold act_value in V. cbn in V. injection V as Vi Vd1 Vd2 Vd3 Vs Vp Vc.
  subst i' s' p'. f_equal; [destruct d, d'; cbn in *; congruence|]. revert Vc. apply map_inj. intros x y Ix Iy V. destruct x as [e|x], y as [e'|y]; cbn in V.
  - f_equal. apply struct_inj; [exact (RS e Ix)|exact (RS' e' Iy)|exact V].
  - destruct y. unfold struct_value in V. destruct (se_kind e); discriminate V.
  - destruct x. unfold struct_value in V. destruct (se_kind e'); discriminate V.
  - f_equal. revert V. apply (proj2 (proj2 elements_inj)).
    + exact (proj1 (B x Ix)).
    + intros c C. destruct c; cbn; auto. apply RI. exact (in_act_child (mk_act i d s p cs) x _ Ix C).
    + intros c C. destruct c; cbn; auto. apply RI'. exact (in_act_child (mk_act i d' s p cs') y _ Iy C).
Qed.
