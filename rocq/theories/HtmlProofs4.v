From Coq Require Import Lia.
From Coq Require Import ZifyBool ZifyNat ZifyN.
From Verif Require Import PyBase PyBaseFacts IdModel LineModel DateModel RefModel RefSpec RefProofs3 TreeModel TreeSpec TreeProofs TreeProofs2 StructModel HtmlModel HtmlSpec HtmlProofs HtmlProofs2 HtmlProofs3.
Local Open Scope Z_scope.

Definition ids (ns : list node) : list (pystr * pystr) := List.filter (fun it => negb (str_eqb (fst it) [])) (flat_map id_elements ns).
Lemma ids_app a b : ids (a ++ b) = ids a ++ ids b.
Proof. unfold ids. now rewrite flat_map_app, filter_app. Qed.
Lemma ids_cons n b : ids (n :: b) = ids [n] ++ ids b.
Proof. apply (ids_app [n] b). Qed.
Lemma id_string_nonempty r : relative_id_string r <> [].
Proof.
  unfold relative_id_string. rewrite !replace_single. intros E.
  assert (H : In 95%N (subst_chr 58 (u8 "colon") (subst_chr 47 (u8 "slash") (join_str (u8 "_") (map rpart_text [r_article r; r_paragraph r; r_point r; r_subpoint r]))))).
  { unfold subst_chr. apply in_flat_map. exists 95%N. split; [|now left]. apply in_flat_map. exists 95%N. split; [|now left]. cbn [map join_str]. apply in_or_app. right. now left. }
  rewrite E in H. destruct H.
Qed.
Lemma ids_cls c t : ids [div (cls c) t] = [].
Proof. reflexivity. Qed.
Lemma ids_inside tag c t ns : ids [Node tag (cls c) t ns []] = ids ns.
Proof. unfold ids. cbn [flat_map id_elements cls]. now rewrite !app_nil_r. Qed.
Lemma ids_links c text r os n : text_with_links (cls c) text r os = Ok n -> ids [n] = [].
Proof.
  intros E. apply links_text in E as (_ & Tl & _ & At & _ & F & _). destruct n as [tag at' text' cs tail]. cbn [n_tail n_attrs n_children] in *. subst. rewrite ids_inside.
  induction F as [|[t a x ch l] cs (_ & C & h & A) F IH]; [reflexivity|]. cbn [n_children n_attrs] in *. subst. rewrite ids_cons, IH. reflexivity.
Qed.
Lemma ids_when o f ns : (forall x n, f x = Ok n -> ids [n] = []) -> when o f = Ok ns -> ids ns = [].
Proof.
  intros H E. unfold when in E. destruct (opt_true o) as [x|]; [|injection E as <-; reflexivity]. apply bind_ok in E as (n & E & En). injection En as <-. eauto.
Qed.
Lemma ids_struct e ns : html_struct e = Ok ns -> ids ns = [].
Proof. unfold html_struct. intros E. apply bind_ok in E as (f & _ & E). injection E as <-. destruct (se_kind e); reflexivity. Qed.
Lemma ids_quoted cl ls ns : html_quoted cl ls = Ok ns -> ids ns = [].
Proof.
  unfold html_quoted. intros E. apply bind_ok in E as (off & _ & E). apply bind_ok in E as (lines & El & E). injection E as <-. rewrite ids_inside.
  set (count := List.length ls) in El. revert El. generalize 0%nat at 1. clearbody count. revert lines. induction ls as [|l ls IH]; intros lines j E; cbn [quoted_lines] in E; [injection E as <-; reflexivity|].
  apply bind_ok in E as (n & En & E). apply bind_ok in E as (r & Er & E). injection E as <-. rewrite ids_cons, (IH _ _ Er). unfold quoted_line in En. apply bind_ok in En as (p & _ & En). injection En as <-. reflexivity.
Qed.
Lemma ids_id i c t : ids [div [(u8 "id", i); (u8 "class", c)] t] = if str_eqb i [] then [] else [(i, no_space t)].
Proof. unfold ids. cbn. destruct (str_eqb i []); reflexivity. Qed.
Lemma ids_children f cl r l : (forall c, In c l -> forall ns, html_child cl r c = Ok ns -> ids ns = f c) -> forall ns, html_children cl r l = Ok ns -> ids ns = flat_map f l.
Proof.
  induction l as [|c l IH]; intros H ns E; cbn in E; [injection E as <-; reflexivity|]. apply bind_ok in E as (a & Ea & E). apply bind_ok in E as (b & Eb & E). injection E as <-. cbn [flat_map].
  rewrite ids_app. f_equal; [apply H; auto; now left|]. apply IH; auto. intros d I. apply H. now right.
Qed.
Lemma ids_saes f r l : (forall s, In s l -> forall ns, html_sae r s = Ok ns -> ids ns = f s) -> forall ns, html_saes r l = Ok ns -> ids ns = flat_map f l.
Proof.
  induction l as [|c l IH]; intros H ns E; cbn in E; [injection E as <-; reflexivity|]. apply bind_ok in E as (a & Ea & E). apply bind_ok in E as (b & Eb & E). injection E as <-. cbn [flat_map].
  rewrite ids_app. f_equal; [apply H; auto; now left|]. apply IH; auto. intros d I. apply H. now right.
Qed.
Lemma flat_nil {A B} (l : list A) : flat_map (fun _ => [] : list B) l = [].
Proof. induction l; auto. Qed.

Lemma ids_paren x n : text_in_parentheses x = Ok n -> ids [n] = [].
Proof. intros E. injection E as <-. reflexivity. Qed.
Lemma ids_divs c x n : Ok (div (cls c) x) = Ok n -> ids [n] = [].
Proof. intros E. injection E as <-. reflexivity. Qed.
(* what all elements have in common: the ids of their own, then those of their children *)
Lemma ids_container p i t n cs w m ns f : html_sae p (mk_sae KBlockAmendmentContainer i t n cs w m) = Ok ns ->
  (forall l c, cs = Some l -> In c l -> forall ms, html_child (u8 "blockamendmentcontainer") EXTERNAL c = Ok ms -> ids ms = f c) ->
  ids ns = match cs with None => [] | Some l => flat_map f l end.
Proof.
  rewrite html_container. intros E H. apply bind_ok in E as (a & Ea & E). apply bind_ok in E as (b & Eb & E). apply bind_ok in E as (c & Ec & E). injection E as <-. destruct cs as [l|]; [|discriminate]. cbn [opt_children] in Eb.
  rewrite ids_app, (ids_when _ _ _ ids_paren Ea). cbn [app]. rewrite ids_cons, ids_cls. cbn [app]. rewrite ids_cons, ids_inside, ids_cons, ids_cls. cbn [app].
  rewrite (ids_when _ _ _ ids_paren Ec), app_nil_r. apply (ids_children f) in Eb; auto. intros d I. eapply H; eauto.
Qed.
Lemma ids_element p k i t n cs w m ns f : k <> KBlockAmendmentContainer -> html_sae p (mk_sae k i t n cs w m) = Ok ns ->
  (forall l c, cs = Some l -> In c l -> forall ms, html_child (sae_class k) (place p (mk_sae k i t n cs w m)) c = Ok ms -> ids ms = f c) ->
  ids ns = (let j := id_of (place p (mk_sae k i t n cs w m)) in if str_eqb j [] then [] else [(j, no_space (label k i))]) ++
    match opt_true t with Some _ => [] | None => match cs with None => [] | Some l => flat_map f l end end.
Proof.
  intros K E H. rewrite html_element in E by auto. cbn zeta in *. set (r := place p _) in *. destruct (opt_true t) as [x|].
  - apply bind_ok in E as (y & Ey & E). injection E as <-. rewrite ids_cons. unfold sae_id. rewrite ids_id. f_equal. eapply ids_links. exact Ey.
  - apply bind_ok in E as (a & Ea & E). apply bind_ok in E as (b & Eb & E). apply bind_ok in E as (c & Ec & E). injection E as <-. rewrite ids_cons. unfold sae_id. rewrite ids_id. f_equal.
    rewrite !ids_app, (ids_when _ _ _ (fun x n => ids_links _ _ _ _ n) Ea), (ids_when _ _ _ (fun x n => ids_divs _ _ n) Ec), app_nil_r. cbn [app].
    destruct cs as [l|]; [|discriminate]. cbn [opt_children] in Eb. apply (ids_children f) in Eb; auto. intros d I. eapply H; eauto.
Qed.
Lemma ids_article p i t ps ns f : html_article p (mk_article i t ps) = Ok ns ->
  (forall s, In s ps -> forall ms, html_sae (relative_to (mk_ref None (RId i) RNone RNone RNone) p) s = Ok ms -> ids ms = f s) ->
  ids ns = (let j := id_of (relative_to (mk_ref None (RId i) RNone RNone RNone) p) in if str_eqb j [] then [] else [(j, no_space (i ++ u8 ". §"))]) ++ flat_map f ps.
Proof.
  intros E H. rewrite html_article_eq in E. cbn zeta in *. apply bind_ok in E as (a & Ea & E). apply bind_ok in E as (b & Eb & E). injection E as <-. rewrite ids_cons, ids_id. f_equal.
  rewrite !ids_app, ids_cls, app_nil_r, (ids_when _ _ _ (fun x n => ids_divs _ _ n) Ea). cbn [app]. exact (ids_saes f _ _ H _ Eb).
Qed.

(** * Inside amendments there are none *)
Definition external (r : reference) : Prop := r_act r = Some (u8 "EXTERNAL").
Lemma external_id r : external r -> id_of r = [].
Proof. unfold external, id_of. intros ->. reflexivity. Qed.
Lemma external_place r s : external r -> external (place r s).
Proof. unfold external, place. intros E. destruct (s_identifier s), (s_kind s); auto. Qed.
Lemma external_ids :
  (forall s r ns, external r -> html_sae r s = Ok ns -> ids ns = []) /\
  (forall c cl r ns, external r -> html_child cl r c = Ok ns -> ids ns = []) /\
  (forall a r ns, external r -> html_article r a = Ok ns -> ids ns = []).
Proof.
  apply tree_mut.
  - intros k i t n cs w m H r ns X E. destruct (sae_kind_eqb k KBlockAmendmentContainer) eqn:K.
    + assert (k = KBlockAmendmentContainer) as -> by (destruct k; try discriminate; reflexivity). rewrite (ids_container _ _ _ _ _ _ _ _ (fun _ => []) E).
      * destruct cs; auto. apply flat_nil.
      * intros l c El I ms Em. specialize (H l El). rewrite Forall_forall in H. refine (H c I _ EXTERNAL ms _ Em); reflexivity.
    + assert (K' : k <> KBlockAmendmentContainer) by (intros ->; discriminate). rewrite (ids_element _ _ _ _ _ _ _ _ _ (fun _ => []) K' E).
      * cbn zeta. rewrite external_id by now apply external_place. cbn [str_eqb app]. destruct (opt_true t); auto. destruct cs; auto. apply flat_nil.
      * intros l c El I ms Em. specialize (H l El). rewrite Forall_forall in H. eapply (H c I); [|exact Em]. now apply external_place.
  - intros s H cl r ns X E. exact (H r ns X E).
  - intros a H cl r ns X E. exact (H r ns X E).
  - intros ls cl r ns X E. exact (ids_quoted cl ls ns E).
  - intros e cl r ns X E. exact (ids_struct e ns E).
  - intros i t ps H r ns X E. assert (X' : external (relative_to (mk_ref None (RId i) RNone RNone RNone) r)) by exact X. rewrite (ids_article _ _ _ _ _ (fun _ => []) E).
    + cbn zeta. rewrite external_id by exact X'. apply flat_nil.
    + intros s I ms Em. rewrite Forall_forall in H. eapply (H s I); eauto.
Qed.

(** * Outside, one for each element *)
Definition id_pair (rs : reference * sae) : pystr * pystr := (relative_id_string (fst rs), no_space (label (s_kind (snd rs)) (s_identifier (snd rs)))).
Lemma id_of_inner r : r_act r = None -> id_of r = relative_id_string r.
Proof. unfold id_of. intros ->. reflexivity. Qed.
Lemma inner_place r s : r_act r = None -> r_act (place r s) = None.
Proof. unfold place. intros E. destruct (s_identifier s), (s_kind s); auto. Qed.
Lemma own_id r k i : r_act r = None -> (let j := id_of r in if str_eqb j [] then [] else [(j, no_space (label k i))]) = [(relative_id_string r, no_space (label k i))].
Proof. intros E. cbn zeta. rewrite id_of_inner by exact E. destruct (str_eqb (relative_id_string r) []) eqn:S; [|reflexivity]. apply str_eqb_eq in S. now apply id_string_nonempty in S. Qed.
Lemma map_flat {A B C} (g : B -> C) (f : A -> list B) l : map g (flat_map f l) = flat_map (fun x => map g (f x)) l.
Proof. induction l as [|x l IH]; cbn; auto. now rewrite map_app, IH. Qed.
Lemma inner_ids :
  (forall s r ns, r_act r = None -> built_sae s -> html_sae r s = Ok ns -> ids ns = map id_pair (nodes true r s)) /\
  (forall c cl r ns, r_act r = None -> built_child c -> (match c with ChArticle _ => False | _ => True end) -> html_child cl r c = Ok ns -> ids ns = map id_pair (child_nodes true r c)) /\
  (forall a : article, True).
Proof.
  apply tree_mut; [| | | | |auto].
  - intros k i t n cs w m H r ns N B E. apply built_local in B as [W B]. destruct (sae_kind_eqb k KBlockAmendmentContainer) eqn:K.
    + assert (k = KBlockAmendmentContainer) as -> by (destruct k; try discriminate; reflexivity). rewrite nodes_container by reflexivity. rewrite (ids_container _ _ _ _ _ _ _ _ (fun _ => []) E).
      * destruct cs; auto. apply flat_nil.
      * intros l c El I ms Em. destruct external_ids as (_ & X & _). eapply X; [|exact Em]. reflexivity.
    + assert (K' : k <> KBlockAmendmentContainer) by (intros ->; discriminate). rewrite nodes_eq by exact K'. cbn [s_children]. set (p := place r _) in *.
      rewrite (ids_element _ _ _ _ _ _ _ _ _ (fun c => map id_pair (child_nodes true p c)) K' E).
      * rewrite own_id by now apply inner_place. cbn [map app]. f_equal. destruct t as [t|].
        -- destruct (wf_text _ W) as (_ & C & _); [discriminate|]. cbn in C. subst. destruct (opt_true (Some t)); reflexivity.
        -- cbn [opt_true]. destruct cs as [l|]; [|reflexivity]. cbn [children_nodes]. now rewrite map_flat.
      * intros l c El I ms Em. pose proof (H l El) as H'. rewrite Forall_forall in H'. eapply (H' c I); [|eapply B; eauto| |exact Em]; [now apply inner_place|].
        pose proof (wf_allowed _ W l c El I) as M. cbn [s_kind] in M. destruct c; auto. inversion M; congruence.
  - intros s H cl r ns N B _ E. inversion B; subst. exact (H r ns N H1 E).
  - intros a _ cl r ns _ _ [].
  - intros ls cl r ns _ _ _ E. exact (ids_quoted cl ls ns E).
  - intros e cl r ns _ _ _ E. exact (ids_struct e ns E).
Qed.
Lemma article_ids_html x ns : built_article x -> html_article EMPTY_REF x = Ok ns ->
  ids ns = map (fun rl => (relative_id_string (fst rl), no_space (snd rl))) (article_ids x).
Proof.
  intros B E. apply built_article_local in B as [_ B]. destruct x as [i t ps]. cbn [a_paragraphs] in B. set (r := mk_ref None (RId i) RNone RNone RNone).
  rewrite (ids_article _ _ _ _ _ (fun s => map id_pair (nodes true r s)) E).
  - cbn zeta. change (relative_to _ EMPTY_REF) with r. rewrite id_of_inner by reflexivity. destruct (str_eqb (relative_id_string r) []) eqn:S; [apply str_eqb_eq in S; now apply id_string_nonempty in S|].
    unfold article_ids. cbn [a_identifier a_paragraphs map fst snd]. fold r. cbn [app]. f_equal. rewrite map_map, map_flat. reflexivity.
  - intros s I ms Em. destruct inner_ids as (H & _). apply (H s r); auto.
Qed.
Theorem body_ids a indent body : built_act a -> html_body a indent = Ok body ->
  real_ids body = map (fun rl => (relative_id_string (fst rl), no_space (snd rl))) (act_ids a).
Proof.
  intros B E. assert (G : forall b, html_body a false = Ok b -> real_ids b = map (fun rl => (relative_id_string (fst rl), no_space (snd rl))) (act_ids a)).
  { clear body E. unfold html_body. intros b E. apply bind_ok in E as (cs & Ec & E). injection E as <-. unfold real_ids. cbn [id_elements]. cbn [cls List.filter map app fst]. change (str_eqb (u8 "class") (u8 "id")) with false. cbn iota. cbn [map app].
    match goal with |- List.filter _ (flat_map _ ?l) = _ => fold (ids l) end. rewrite ids_cons. change (ids [Node (u8 "div") (cls (u8 "act_title")) ?x ?y []]) with (@nil (pystr * pystr)). cbn [app]. rewrite ids_app.
    assert (P : ids (match act_preamble a with [] => [] | p => [div (cls (u8 "preamble")) p] end) = []) by (destruct (act_preamble a); reflexivity). rewrite P. cbn [app]. clear P.
    unfold act_ids, act_articles. unfold built_act in B. revert cs Ec B. induction (act_children a) as [|c l IH]; intros cs E B; cbn [mapM] in E; [injection E as <-; reflexivity|].
    apply bind_ok in E as (x & Ex & E). apply bind_ok in E as (y & Ey & E). injection E as <-. cbn [concat]. rewrite ids_app, (IH y Ey); [|intros z I; apply B; now right]. destruct c as [e|z].
    - rewrite (ids_struct e x Ex). reflexivity.
    - rewrite (article_ids_html z x) by (auto; apply B; now left). cbn [flat_map List.filter app map]. rewrite map_app. reflexivity. }
  destruct indent; [|auto]. rewrite html_body_indent in E. apply bind_ok in E as (b & Eb & E). injection E as <-. rewrite <- (G b Eb). unfold real_ids. f_equal. symmetry. apply reindented_ids, indent_only.
Qed.
Theorem tree_ids a tree : built_act a -> html_tree a = Ok tree ->
  real_ids tree = map (fun rl => (relative_id_string (fst rl), no_space (snd rl))) (act_ids a).
Proof.
  unfold html_tree. intros B E. apply bind_ok in E as (b & Eb & E). injection E as <-. rewrite <- (body_ids a true b B Eb). unfold real_ids. f_equal. cbn. now rewrite !app_nil_r.
Qed.
