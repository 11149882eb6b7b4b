From Coq Require Import Lia.
From Verif Require Import PyBase PyBaseFacts IdModel LineModel DateModel RefModel RefSpec RefProofs3 TreeModel TreeSpec TreeProofs TreeProofs2 StructModel HtmlModel HtmlSpec HtmlProofs HtmlProofs2 HtmlProofs3 HtmlProofs4.
Local Open Scope Z_scope.

Lemma nodup_flat {A B K} (key : A -> K) (g : B -> K) (f : A -> list B) l : NoDup (map key l) ->
  (forall x, In x l -> NoDup (f x) /\ forall y, In y (f x) -> g y = key x) -> NoDup (flat_map f l).
Proof.
  induction l as [|x l IH]; intros N H; cbn; [constructor|]. cbn in N. inversion N as [|? ? Nx Nl]; subst. destruct (H x) as [Nf G]; [now left|].
  assert (D : forall y, In y (f x) -> ~ In y (flat_map f l)).
  { intros y I J. apply in_flat_map in J as (z & Iz & J). apply Nx. rewrite <- (G y I). destruct (H z) as [_ Gz]; [now right|]. rewrite (Gz y J). now apply in_map. }
  assert (Nr : NoDup (flat_map f l)) by (apply IH; auto; intros z I; apply H; now right). clear H G N Nx Nl IH.
  revert D Nf. generalize (f x). induction l0 as [|y m IH]; intros D Nf; cbn; auto. inversion Nf; subst. constructor.
  - intros J. apply in_app_or in J as [J|J]; [contradiction|]. apply (D y); [now left|exact J].
  - apply IH; auto. intros z I. apply D. now right.
Qed.
Lemma filter_flat {A B} (p : B -> bool) (f : A -> list B) l : List.filter p (flat_map f l) = flat_map (fun x => List.filter p (f x)) l.
Proof. induction l as [|x l IH]; cbn; auto. now rewrite filter_app, IH. Qed.

(* the labelled among the nodes *)
Definition keep (rs : reference * sae) : bool := negb (str_eqb (no_space (label (s_kind (snd rs)) (s_identifier (snd rs)))) []).
Definition kept (l : list (reference * sae)) : list reference := map fst (List.filter keep l).
Lemma kept_cons x l : kept (x :: l) = (if keep x then [fst x] else []) ++ kept l.
Proof. unfold kept. cbn. destruct (keep x); reflexivity. Qed.
Lemma kept_flat {A} (f : A -> list (reference * sae)) l : kept (flat_map f l) = flat_map (fun x => kept (f x)) l.
Proof. unfold kept. now rewrite filter_flat, map_flat. Qed.
Lemma no_space_mid a c b : isspace_chr c = false -> no_space (a ++ c :: b) <> [].
Proof. intros S. rewrite no_space_app. unfold no_space at 2. cbn [List.filter]. rewrite S. cbn [negb]. intros E. apply app_eq_nil in E as [_ E]. discriminate. Qed.
Lemma keep_named r s : s_kind s <> KBlockAmendmentContainer -> s_identifier s <> None -> keep (r, s) = true.
Proof.
  intros K I. unfold keep. cbn [snd]. apply negb_true_iff, str_eqb_neq. unfold label, header_prefix. destruct (s_identifier s) as [i|]; [|congruence].
  destruct (s_kind s); try congruence; cbn [opt_format].
  1,4: apply (no_space_mid i 41 (u8 " ")); reflexivity.
  1,2: apply (no_space_mid i 46 (u8 " ")); reflexivity.
  apply (no_space_mid [] 40 (i ++ u8 ") ")). reflexivity.
Qed.
Lemma keep_unnamed r s : s_kind s = KParagraph -> s_identifier s = None -> keep (r, s) = false.
Proof. intros K I. unfold keep. cbn [snd]. rewrite K, I. reflexivity. Qed.
Lemma nodes_elements r s : s_kind s <> KBlockAmendmentContainer -> nodes true r s = (place r s, s) :: flat_map (nodes true (place r s)) (elements_in s).
Proof.
  intros K. rewrite nodes_eq by exact K. f_equal. unfold children_nodes, elements_in. destruct (s_children s) as [l|]; [|reflexivity].
  induction l as [|[c| | |] l IH]; cbn [flat_map child_nodes app]; auto. rewrite IH, flat_map_app. f_equal.
  destruct (s_kind c) eqn:Kc; cbn [flat_map]; rewrite ?app_nil_r; auto. now apply nodes_container.
Qed.
Lemma element_in s c : built_sae s -> In c (elements_in s) -> built_sae c /\ s_kind c <> KBlockAmendmentContainer /\ may_contain (s_kind s) (TSae (s_kind c)).
Proof.
  intros B I. apply built_local in B as [W B]. unfold elements_in in I. destruct (s_children s) as [l|] eqn:El; [|destruct I]. apply in_flat_map in I as (d & Id & I). destruct d as [x| | |]; [|destruct I|destruct I|destruct I].
  assert (H : c = x /\ s_kind c <> KBlockAmendmentContainer) by (destruct (s_kind x) eqn:Kx; cbn [In] in I; try contradiction; destruct I as [<-|I]; try contradiction; rewrite Kx; split; congruence). destruct H as [-> K].
  split; [pose proof (B l (ChSae x) eq_refl Id) as Bx; now inversion Bx|]. split; [exact K|]. exact (wf_allowed _ W l (ChSae x) El Id).
Qed.
Definition is_subpoint (k : sae_kind) := k = KAlphabeticSubpoint \/ k = KNumericSubpoint.
Definition is_point (k : sae_kind) := k = KNumericPoint \/ k = KAlphabeticPoint.
Lemma in_subpoint s : built_sae s -> is_subpoint (s_kind s) -> elements_in s = [].
Proof.
  intros B K. destruct (elements_in s) as [|c l] eqn:E; auto. destruct (element_in s c B) as (_ & _ & M); [rewrite E; now left|]. destruct K as [K|K]; rewrite K in M; inversion M.
Qed.
Lemma in_point s c : built_sae s -> is_point (s_kind s) -> In c (elements_in s) -> built_sae c /\ is_subpoint (s_kind c).
Proof. intros B K I. destruct (element_in s c B I) as (Bc & _ & M). split; auto. unfold is_subpoint. destruct K as [K|K]; rewrite K in M; inversion M; auto. Qed.
Lemma in_paragraph s c : built_sae s -> s_kind s = KParagraph -> In c (elements_in s) -> built_sae c /\ is_point (s_kind c).
Proof. intros B K I. destruct (element_in s c B I) as (Bc & N & M). split; auto. unfold is_point. rewrite K in M; inversion M; auto. congruence. Qed.

Definition part (i : option pystr) : rpart := match i with None => RNone | Some s => RId s end.
Lemma part_inj i j : part i = part j -> i = j.
Proof. destruct i, j; cbn; congruence. Qed.
Lemma map_part l : NoDup (map s_identifier l) -> NoDup (map (fun s => part (s_identifier s)) l).
Proof.
  induction l as [|s l IH]; cbn; intros N; [constructor|]. inversion N as [|? ? Ns Nl]; subst. constructor; auto.
  intros I. apply Ns. apply in_map_iff in I as (x & E & I). apply part_inj in E. rewrite <- E. now apply in_map.
Qed.
Lemma kept_subpoint r s : built_sae s -> is_subpoint (s_kind s) -> s_identifier s <> None ->
  exists y, kept (nodes true r s) = [y] /\ r_article y = r_article r /\ r_paragraph y = r_paragraph r /\ r_point y = r_point r /\ r_subpoint y = part (s_identifier s).
Proof.
  intros B K I. assert (Kn : s_kind s <> KBlockAmendmentContainer) by (destruct K as [K|K]; rewrite K; discriminate). rewrite nodes_elements by exact Kn. rewrite in_subpoint by auto. cbn [flat_map]. rewrite kept_cons, keep_named by auto. exists (place r s). split; [reflexivity|].
  unfold place. destruct (s_identifier s); [|congruence]. destruct K as [K|K]; rewrite K; auto.
Qed.
Lemma kept_point r s : built_sae s -> is_point (s_kind s) -> s_identifier s <> None -> distinct_children s ->
  NoDup (kept (nodes true r s)) /\ forall y, In y (kept (nodes true r s)) -> r_article y = r_article r /\ r_paragraph y = r_paragraph r /\ r_point y = part (s_identifier s).
Proof.
  intros B K I [D Nn]. assert (Kn : s_kind s <> KBlockAmendmentContainer) by (destruct K as [K|K]; rewrite K; discriminate). rewrite nodes_elements by exact Kn. rewrite kept_cons, keep_named by auto. cbn [app fst]. rewrite kept_flat. rewrite Forall_forall in Nn.
  assert (P : r_article (place r s) = r_article r /\ r_paragraph (place r s) = r_paragraph r /\ r_point (place r s) = part (s_identifier s) /\ r_subpoint (place r s) = RNone)
    by (unfold place; destruct (s_identifier s); [|congruence]; destruct K as [K|K]; rewrite K; auto). destruct P as (P1 & P2 & P3 & P4).
  assert (S : forall c y, In c (elements_in s) -> In y (kept (nodes true (place r s) c)) -> r_article y = r_article r /\ r_paragraph y = r_paragraph r /\ r_point y = part (s_identifier s) /\ r_subpoint y = part (s_identifier c)).
  { intros c y Ic Iy. destruct (in_point s c B K Ic) as [Bc Kc]. destruct (kept_subpoint (place r s) c Bc Kc (Nn c Ic)) as (z & Ez & Z1 & Z2 & Z3 & Z4). rewrite Ez in Iy. destruct Iy as [<-|[]]. repeat split; congruence. }
  split.
  - constructor.
    + intros J. apply in_flat_map in J as (c & Ic & J). destruct (S c _ Ic J) as (_ & _ & _ & S4). rewrite P4 in S4. pose proof (Nn c Ic). destruct (s_identifier c); [discriminate|congruence].
    + apply (nodup_flat (fun c => part (s_identifier c)) r_subpoint); [now apply map_part|]. intros c Ic. split; [|intros y Iy; now apply S].
      destruct (in_point s c B K Ic) as [Bc Kc]. destruct (kept_subpoint (place r s) c Bc Kc (Nn c Ic)) as (z & -> & _). constructor; [intros []|constructor].
  - intros y [<-|J]; [auto|]. apply in_flat_map in J as (c & Ic & J). destruct (S c _ Ic J) as (S1 & S2 & S3 & _). auto.
Qed.
Lemma kept_paragraph r s : built_sae s -> s_kind s = KParagraph -> r_paragraph r = RNone -> distinct_children s -> Forall distinct_children (elements_in s) ->
  NoDup (kept (nodes true r s)) /\ forall y, In y (kept (nodes true r s)) -> r_article y = r_article r /\ r_paragraph y = part (s_identifier s) /\ (r_paragraph y <> RNone \/ r_point y <> RNone).
Proof.
  intros B K N [D Nn] Dc. assert (Kn : s_kind s <> KBlockAmendmentContainer) by (rewrite K; discriminate). rewrite nodes_elements by exact Kn. rewrite kept_cons, kept_flat. rewrite Forall_forall in Nn, Dc.
  assert (P : r_article (place r s) = r_article r /\ r_paragraph (place r s) = part (s_identifier s)) by (unfold place; rewrite K; destruct (s_identifier s); auto). destruct P as (P1 & P2).
  assert (S : forall c, In c (elements_in s) -> NoDup (kept (nodes true (place r s) c)) /\ forall y, In y (kept (nodes true (place r s) c)) -> r_article y = r_article r /\ r_paragraph y = part (s_identifier s) /\ r_point y = part (s_identifier c) /\ r_point y <> RNone).
  { intros c Ic. destruct (in_paragraph s c B K Ic) as [Bc Kc]. destruct (kept_point (place r s) c Bc Kc (Nn c Ic) (Dc c Ic)) as [Nc Hc]. split; auto. intros y Iy. destruct (Hc y Iy) as (H1 & H2 & H3). repeat split; try congruence. pose proof (Nn c Ic). rewrite H3. destruct (s_identifier c); [discriminate|congruence]. }
  assert (Nf : NoDup (flat_map (fun c => kept (nodes true (place r s) c)) (elements_in s))).
  { apply (nodup_flat (fun c => part (s_identifier c)) r_point); [now apply map_part|]. intros c Ic. destruct (S c Ic) as [Nc Hc]. split; auto. intros y Iy. now apply Hc. }
  destruct (s_identifier s) as [i|] eqn:Ei.
  - rewrite keep_named by (congruence). cbn [app fst]. split.
    + constructor; auto. intros J. apply in_flat_map in J as (c & Ic & J). destruct (S c Ic) as [_ Hc]. destruct (Hc _ J) as (_ & _ & _ & H). apply H. unfold place. rewrite Ei, K. reflexivity.
    + intros y [<-|J]; [split; auto; split; auto; left; rewrite P2; discriminate|]. apply in_flat_map in J as (c & Ic & J). destruct (S c Ic) as [_ Hc]. destruct (Hc _ J) as (H1 & H2 & H3 & H4). auto.
  - rewrite keep_unnamed by auto. cbn [app]. split; auto. intros y J. apply in_flat_map in J as (c & Ic & J). destruct (S c Ic) as [_ Hc]. destruct (Hc _ J) as (H1 & H2 & H3 & H4). auto.
Qed.

Definition labelled (rl : reference * pystr) : bool := negb (str_eqb (no_space (snd rl)) []).
Definition article_kept (x : article) : list reference := map fst (List.filter labelled (article_ids x)).
Lemma article_kept_eq x : let r := mk_ref None (RId (a_identifier x)) RNone RNone RNone in article_kept x = r :: flat_map (fun p => kept (nodes true r p)) (a_paragraphs x).
Proof.
  intros r. unfold article_kept, article_ids. fold r. cbn [List.filter]. replace (labelled (r, a_identifier x ++ u8 ". §")) with true.
  - cbn [map fst]. f_equal. rewrite <- kept_flat. unfold kept. generalize (flat_map (nodes true r) (a_paragraphs x)). intros l. induction l as [|y l IH]; [reflexivity|]. cbn [map List.filter]. change (labelled (fst y, _)) with (keep y). destruct (keep y); cbn [map fst]; now rewrite IH.
  - symmetry. apply negb_true_iff, str_eqb_neq. cbn [snd]. apply (no_space_mid (a_identifier x) 46 (u8 " §")). reflexivity.
Qed.
Lemma article_unique x : built_article x -> paragraphs_only x -> distinct_article x -> NoDup (article_kept x) /\ forall y, In y (article_kept x) -> r_article y = RId (a_identifier x).
Proof.
  intros B Po [D Dp]. apply built_article_local in B as [_ B]. unfold paragraphs_only in Po. rewrite Forall_forall in Po, Dp. rewrite article_kept_eq. cbn zeta. set (r := mk_ref None (RId (a_identifier x)) RNone RNone RNone).
  assert (S : forall p, In p (a_paragraphs x) -> NoDup (kept (nodes true r p)) /\ forall y, In y (kept (nodes true r p)) -> r_article y = r_article r /\ r_paragraph y = part (s_identifier p) /\ (r_paragraph y <> RNone \/ r_point y <> RNone)).
  { intros p I. destruct (Dp p I) as [D1 D2]. apply kept_paragraph; auto. }
  split.
  - constructor.
    + intros J. apply in_flat_map in J as (p & Ip & J). destruct (S p Ip) as [_ H]. destruct (H _ J) as (_ & _ & [C|C]); now apply C.
    + apply (nodup_flat (fun p => part (s_identifier p)) r_paragraph); [now apply map_part|]. intros p Ip. destruct (S p Ip) as [Np H]. split; auto. intros y Iy. now apply H.
  - intros y [<-|J]; [reflexivity|]. apply in_flat_map in J as (p & Ip & J). destruct (S p Ip) as [_ H]. now apply H.
Qed.
Lemma act_article a x : In x (act_articles a) -> In (AArticle x) (act_children a).
Proof. unfold act_articles. intros I. apply in_flat_map in I as (c & Ic & I). destruct c as [e|y]; [destruct I|]. destruct I as [<-|[]]. exact Ic. Qed.
Lemma act_unique a : built_act a -> distinct_act a -> NoDup (map fst (List.filter labelled (act_ids a))).
Proof.
  intros B [D Da]. rewrite Forall_forall in Da. unfold act_ids. rewrite filter_flat, map_flat. change (NoDup (flat_map article_kept (act_articles a))).
  apply (nodup_flat (fun x => RId (a_identifier x)) r_article).
  - clear -D. induction (act_articles a) as [|x l IH]; cbn in *; [constructor|]. inversion D; subst. constructor; auto. intros I. apply in_map_iff in I as (y & E & I). injection E as E. apply H1. rewrite <- E. now apply in_map.
  - intros x I. destruct (B x (act_article a x I)) as [Bx Px]. apply article_unique; auto.
Qed.
Lemma act_ids_inner a r l : In (r, l) (act_ids a) -> r_act r = None.
Proof.
  unfold act_ids. intros I. apply in_flat_map in I as (x & _ & I). unfold article_ids in I. destruct I as [E|I]; [now injection E as <- _|]. apply in_map_iff in I as ([r' s] & E & I). injection E as <- _. apply in_flat_map in I as (p & _ & I).
  assert (G : forall s p, r_act p = None -> forall r' s', In (r', s') (nodes true p s) -> r_act r' = None).
  { clear. pose proof (tree_mut (fun s => forall p, r_act p = None -> forall r' s', In (r', s') (nodes true p s) -> r_act r' = None)
      (fun c => forall p, r_act p = None -> forall r' s', In (r', s') (child_nodes true p c) -> r_act r' = None) (fun _ => True)) as T.
    refine (proj1 (T _ _ _ _ _ _)); clear T; [|auto|cbn; intros; contradiction|cbn; intros; contradiction|cbn; intros; contradiction|auto].
    intros k i t n cs w m H p E r' s' I. destruct (sae_kind_eqb k KBlockAmendmentContainer) eqn:K.
    - rewrite nodes_container in I by (destruct k; try discriminate; reflexivity). destruct I.
    - rewrite nodes_eq in I by (cbn; intros ->; discriminate). cbn [s_children] in I. pose proof (inner_place p (mk_sae k i t n cs w m) E) as E'. destruct I as [I|I]; [injection I as <- _; exact E'|].
      unfold children_nodes in I. destruct cs as [l|]; [|destruct I]. apply in_flat_map in I as (c & Ic & I). specialize (H l eq_refl). rewrite Forall_forall in H. eapply (H c Ic); [|exact I]. exact E'. }
  eapply G; [|exact I]. reflexivity.
Qed.
Lemma nodup_map {A B} (f : A -> B) l : NoDup l -> (forall x y, In x l -> In y l -> f x = f y -> x = y) -> NoDup (map f l).
Proof.
  induction l as [|x l IH]; cbn; intros N H; [constructor|]. inversion N as [|? ? Nx Nl]; subst. constructor; [|apply IH; auto].
  intros I. apply in_map_iff in I as (y & E & I). apply Nx. rewrite (H x y); auto.
Qed.
Theorem labelled_unique a tree : built_act a -> distinct_act a -> safe_ids a -> html_tree a = Ok tree -> NoDup (labelled_ids tree).
Proof.
  intros B D S E. unfold labelled_ids. rewrite (tree_ids a tree B E).
  assert (Em : map fst (List.filter (fun it : pystr * pystr => negb (str_eqb (snd it) [])) (map (fun rl => (relative_id_string (fst rl), no_space (snd rl))) (act_ids a))) = map relative_id_string (map fst (List.filter labelled (act_ids a)))).
  { generalize (act_ids a). intros l. induction l as [|rl l IH]; [reflexivity|]. cbn [map List.filter snd]. change (negb (str_eqb (no_space (snd rl)) [])) with (labelled rl). destruct (labelled rl); cbn [map fst]; now rewrite IH. }
  rewrite Em. apply nodup_map; [now apply act_unique|]. unfold safe_ids in S. rewrite Forall_forall in S.
  assert (H : forall r, In r (map fst (List.filter labelled (act_ids a))) -> r_act r = None /\ Forall part_safe (tl (components r))).
  { intros r I. apply in_map_iff in I as ([r' l] & <- & I). apply filter_In in I as [I _]. split; [eapply act_ids_inner; exact I|]. exact (S _ I). }
  intros r s Ir Is Ers. destruct (H r Ir) as [Ar Sr]. destruct (H s Is) as [As Ss]. apply (f_equal from_relative_id_string) in Ers. rewrite !id_string_inverse in Ers by assumption. injection Ers. destruct r, s. cbn in *. congruence.
Qed.
