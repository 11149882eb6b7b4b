From Coq Require Import Permutation Sorted.
From Verif Require Import PyBase PyBaseFacts LineModel DateModel RefModel TreeModel TreeSpec TreeProofs StructModel StructProofs SemModel SemSpec SemProofs4 SemProofs6 D2oHunSpec FitSpec.
Local Open Scope Z_scope.

Lemma Forall_slice {A} (P : A -> Prop) i j l : Forall P l -> Forall P (slice_nat i j l).
Proof. intros F. unfold slice_nat. now apply Forall_firstn', Forall_skipn'. Qed.
Lemma levels_raw (P : line -> Prop) throw ls : Forall P ls -> Forall (fun x => P (snd x)) (g_items (iterate_with_quote_level throw ls)).
Proof.
  unfold iterate_with_quote_level. generalize 0. induction ls as [|l ls IH]; intros q F; [constructor|]. apply Forall_cons_iff in F as [L F].
  cbn [quote_level_loop]. match goal with |- context [if ?c then _ else _] => destruct c end; cbn [g_items]; constructor; auto.
Qed.
Lemma by_indent_raw (P : line -> Prop) x ls : forall b r t, Forall P b -> Forall P ls -> wrapup_by_indent x b ls = Some (r, t) -> Forall P r.
Proof.
  induction ls as [|l ls IH]; intros b r t B L E; cbn [wrapup_by_indent] in E; [discriminate|]. apply Forall_cons_iff in L as [L0 L].
  destruct (f_ltb _ _); [injection E as <- <-; exact B|]. refine (IH _ _ _ _ L E). apply Forall_app. split; [exact B|now repeat constructor].
Qed.
Lemma by_margin_raw (P : line -> Prop) ls : forall b r t, Forall P ls -> wrapup_by_margin ls b = Some (r, t) -> Forall P r.
Proof.
  induction ls as [|l ls IH]; intros b r t L E; cbn [wrapup_by_margin] in E; [discriminate|].
  destruct (f_ltb _ _); [injection E as <- <-; exact (Forall_rev L)|]. apply Forall_cons_iff in L as [L0 L]. exact (IH _ _ _ L E).
Qed.
Lemma split_last_raw (P : line -> Prop) p ls pi r w : Forall P ls -> split_last_item_and_wrapup p ls pi = Ok (r, w) -> Forall P r.
Proof.
  intros L. unfold split_last_item_and_wrapup. destruct (negb _); [intros [= <- _]; exact L|]. cbv zeta.
  assert (F : Forall P (List.filter not_empty_line ls)). { rewrite Forall_forall in *. intros x I. apply filter_In in I as [I _]. auto. }
  revert F. generalize (List.filter not_empty_line ls). intros fs F. destruct pi.
  - destruct fs as [|l0 t]; [discriminate|]. pose proof F as F'. apply Forall_cons_iff in F' as [F0 F'].
    destruct (wrapup_by_indent _ _ t) as [[a b]|] eqn:E; intros [= <- _]; [|exact F]. eapply by_indent_raw; [| |exact E]; auto.
  - apply Forall_rev in F. pose proof F as G. destruct (rev fs) as [|l t] eqn:R.
    + intros [= <- _]. apply (f_equal (@rev _)) in R. rewrite rev_involutive in R. now subst fs.
    + destruct (wrapup_by_margin t [l]) as [[a b]|] eqn:E; intros [= <- _].
      * eapply by_margin_raw; [|exact E]. now apply Forall_cons_iff in F as [_ F].
      * apply Forall_rev in G. rewrite <- R, rev_involutive in G. exact G.
Qed.
Lemma article_title_raw (P : line -> Prop) ls t r : Forall P ls -> article_title ls = Ok (t, r) -> Forall P r.
Proof.
  intros L. unfold article_title. intros E. apply bind_ok in E as (l0 & _ & E). apply bind_ok in E as (c & _ & E).
  destruct (_ =? _)%N; [|injection E as _ <-; exact L]. apply bind_ok in E as (e0 & _ & E). destruct (e0 =? _)%N; [injection E as _ <-; exact (Forall_skipn' P 1 ls L)|].
  apply bind_ok in E as (l1 & _ & E). apply bind_ok in E as (e1 & _ & E). destruct (e1 =? _)%N; [injection E as _ <-; exact (Forall_skipn' P 2 ls L)|].
  apply bind_ok in E as (l2 & _ & E). apply bind_ok in E as (e2 & _ & E). destruct (e2 =? _)%N; [injection E as _ <-; exact (Forall_skipn' P 3 ls L)|discriminate].
Qed.
Lemma quoted_block_in p n ls : quoted_block p n = Ok ls -> inside_sae (ChQuoted ls) p.
Proof.
  unfold quoted_block. destruct (s_children p) as [cs|] eqn:C; [|discriminate]. cbv zeta. destruct (_ || _); [discriminate|].
  destruct (nth_error cs _) as [[| |l|]|] eqn:E; try discriminate. intros [= ->]. econstructor 1; [exact C|]. now apply nth_error_In in E.
Qed.

Lemma mapM_forall {A B} (f : A -> res B) (P : A -> Prop) (Q : B -> Prop) l r : (forall x y, P x -> f x = Ok y -> Q y) ->
  Forall P l -> mapM f l = Ok r -> Forall Q r.
Proof.
  intros H F. revert r. induction F as [|x t X F IH]; intros r E; cbn [mapM] in E.
  - injection E as <-. constructor.
  - apply bind_ok in E as (y & E1 & E). apply bind_ok in E as (ys & E2 & E). injection E as <-. constructor; eauto.
Qed.

(** * Elements as the parsers make them *)

Section Raw.
(* a property of lines that parts of a line have if the line has it *)
Variable P : line -> Prop.
Hypothesis P_slice : forall l i j q, P l -> l_slice l i j = Ok q -> P q.
(* a property of identifiers that those found by some parsers have *)
Variable Q : option pystr -> Prop.
(* a property that structural elements have when they are parsed *)
Variable HS : structural_element -> Prop.
Hypothesis HS_parse : forall k ls e, struct_parse k ls = Ok e -> HS e.
Definition good_conf (p : pconf) : Prop := pc_kind p <> KBlockAmendmentContainer /\ forall l, Q (extract_identifier p l).

Definition if_amendment (s : sae) : Prop := s_kind s = KBlockAmendmentContainer.
Definition okc (c : child) : Prop :=
  match c with
  | ChSae s => (s_meta s = NO_META /\ complete s) /\ (if_amendment s -> s_children s <> None) /\ (s_kind s <> KBlockAmendmentContainer -> Q (s_identifier s))
  | ChArticle a => paragraphs_only a
  | ChQuoted ls => Forall P ls
  | ChStruct e => HS e
  end.
Definition raw (c : child) : Prop := built_child c /\ okc c /\ forall d, inside_child_of d c -> okc d.

Lemma new_sae_raw k i t n cs w m s : (forall l, cs = Some l -> Forall raw l) -> m = NO_META -> t <> None \/ cs <> None -> (k = KBlockAmendmentContainer -> cs <> None) -> (k <> KBlockAmendmentContainer -> Q i) ->
  new_sae k i t n cs w m = Ok s -> raw (ChSae s) /\ s_kind s = k.
Proof.
  intros R M C HB HQ E. pose proof E as E0. apply new_sae_ok in E as [-> W]. subst m. split; [|reflexivity].
  assert (R' : forall l c, cs = Some l -> In c l -> raw c).
  { intros l c L I. specialize (R l L). rewrite Forall_forall in R. auto. }
  split; [constructor; eapply built_sae_intro; [|exact E0]; intros l c L I; exact (proj1 (R' l c L I))|].
  split; [split; [split; [reflexivity|exact C]|split; [exact HB|exact HQ]]|]. intros d D. inversion D as [c' s' D' |]; subst. inversion D' as [s' l c' L I|s' l e c' L I X]; subst; cbn in L.
  - exact (proj1 (proj2 (R' _ _ L I))).
  - exact (proj2 (proj2 (R' _ _ L I)) _ X).
Qed.
Lemma new_article_raw i t ps a : Forall (fun p => raw (ChSae p) /\ s_kind p = KParagraph) ps -> new_article i t ps = Ok a -> raw (ChArticle a).
Proof.
  intros F E. pose proof E as E0. apply new_article_ok in E as [-> W]. rewrite Forall_forall in F.
  split; [constructor; eapply built_article_intro; [|exact E0]; intros p I; destruct (F p I) as [[B _] _]; now inversion B|].
  split; [apply Forall_forall; intros p I; exact (proj2 (F p I))|].
  intros d D. inversion D as [|c' a' D']; subst. inversion D' as [a' p I|a' p c' I X]; subst; cbn in I; destruct (F p I) as [[B [O R]] _].
  - exact O.
  - apply R. now constructor.
Qed.

Definition raw_sub (s : sub_parser) : Prop := forall ls pi cs w, Forall P ls -> sp_extract s ls pi = Ok (cs, w) -> Forall raw cs.
Definition raw_subs (p : pconf) (f : option pystr -> res (list sub_parser)) : Prop := forall x l, f (extract_identifier p x) = Ok l -> Forall raw_sub l.

Lemma first_headers_raw subs ls hs : Forall raw_sub subs -> first_headers subs ls = Ok hs -> Forall (fun h => raw_sub (snd h)) hs.
Proof.
  intros F. revert hs. induction F as [|s t R F IH]; intros hs E; cbn [first_headers] in E.
  - injection E as <-. constructor.
  - apply bind_ok in E as (h & _ & E). apply bind_ok in E as (r & Er & E). specialize (IH r Er). injection E as <-.
    destruct h as [n|]; [|exact IH]. destruct (_ && _); [exact IH|]. constructor; [exact R|exact IH].
Qed.
Lemma insert_header_raw x l r : raw_sub (snd x) -> Forall (fun h => raw_sub (snd h)) l -> insert_header x l = Ok r -> Forall (fun h => raw_sub (snd h)) r.
Proof.
  intros X F. revert r. induction F as [|y t Y F IH]; intros r E; cbn [insert_header] in E.
  - injection E as <-. repeat constructor. exact X.
  - destruct (Nat.eqb _ _); [discriminate|]. destruct (Nat.ltb _ _).
    + injection E as <-. constructor; [exact X|]. now constructor.
    + apply bind_ok in E as (z & Ez & E). injection E as <-. constructor; [exact Y|]. now apply IH.
Qed.
Lemma sort_headers_raw l r : Forall (fun h => raw_sub (snd h)) l -> sort_headers l = Ok r -> Forall (fun h => raw_sub (snd h)) r.
Proof.
  intros F. revert r. induction F as [|y t Y F IH]; intros r E; cbn [sort_headers] in E.
  - injection E as <-. constructor.
  - apply bind_ok in E as (z & Ez & E). eapply insert_header_raw; [exact Y|exact (IH z Ez)|exact E].
Qed.
Lemma try_headers_raw hs ls pi i cs w : Forall P ls -> Forall (fun h => raw_sub (snd h)) hs -> try_headers hs ls pi = Ok (i, cs, w) -> Forall raw cs.
Proof.
  intros L. induction 1 as [|[n s] t Y F IH]; cbn [try_headers]; [discriminate|]. cbn [snd] in Y. destruct (sp_extract s _ _) as [[c w']|e] eqn:E.
  - intros [= _ <- _]. eapply Y; [|exact E]. now apply Forall_skipn'.
  - destruct e; try discriminate. exact IH.
Qed.
Lemma sae_parse_raw p subs_of ls pi s : good_conf p -> raw_subs p subs_of -> Forall P ls -> sae_parse p subs_of ls pi = Ok s -> raw (ChSae s) /\ s_kind s = pc_kind p.
Proof.
  intros G R. unfold sae_parse. destruct ls as [|l0 ls]; [discriminate|]. intros L E. apply Forall_cons_iff in L as [L0 L]. apply bind_ok in E as (pre & _ & E). apply bind_ok in E as ([] & _ & E).
  apply bind_ok in E as (fl & Fl & E). destruct (subs <- _ ;; _) as [[[i cs] w]|e] eqn:PC.
  - apply bind_ok in PC as (subs & S & PC). unfold parse_children_and_wrapup in PC. apply bind_ok in PC as (hs & H1 & PC). apply bind_ok in PC as (hs' & H2 & PC).
    eapply new_sae_raw; [| |right| |intros _; apply G|exact E]; [|reflexivity|discriminate|intros _; discriminate]. intros l [= <-].
    eapply try_headers_raw; [constructor; [eapply P_slice; eauto|exact L]| |exact PC]. eapply sort_headers_raw; [|exact H2]. eapply first_headers_raw; [|exact H1]. eapply R; eauto.
  - destruct e; try discriminate. eapply new_sae_raw; [| |left| |intros _; apply G|exact E]; [discriminate|reflexivity|discriminate|intros K; destruct (proj1 G K)].
Qed.
Lemma parse_items_raw p subs_of pi ls hs es : good_conf p -> raw_subs p subs_of -> Forall P ls -> parse_items (fun l => sae_parse p subs_of l pi) ls hs = Ok es ->
  Forall (fun s => raw (ChSae s) /\ s_kind s = pc_kind p) es.
Proof.
  intros G R L. revert es. induction hs as [|a t IH]; intros es E; cbn [parse_items] in E.
  - injection E as <-. constructor.
  - destruct t as [|b t]; [injection E as <-; constructor|]. apply bind_ok in E as (e & E1 & E). apply bind_ok in E as (es' & E2 & E). injection E as <-.
    constructor; [eapply sae_parse_raw; [exact G|exact R| |exact E1]; now apply Forall_slice|]. now apply IH.
Qed.
Lemma extract_multiple_raw p subs_of ls pi es w : good_conf p -> raw_subs p subs_of -> Forall P ls -> extract_multiple p subs_of ls pi = Ok (es, w) ->
  Forall (fun s => raw (ChSae s) /\ s_kind s = pc_kind p) es.
Proof.
  intros G R L. unfold extract_multiple. intros E. apply bind_ok in E as (hs & _ & E). destruct hs as [|h0 hs]; [discriminate|].
  apply bind_ok in E as ([] & _ & E). destruct ls as [|l0 ls]; [discriminate|]. apply bind_ok in E as ([] & _ & E). destruct (_ && _); [discriminate|].
  apply bind_ok in E as (es' & E1 & E). apply bind_ok in E as ([rest w'] & E2 & E). apply bind_ok in E as (e & E3 & E). injection E as <- <-.
  apply Forall_app. split; [eapply parse_items_raw; [exact G|exact R|exact L|exact E1]|]. constructor; [|constructor]. eapply sae_parse_raw; [exact G|exact R| |exact E3]. eapply split_last_raw; [|exact E2]. now apply Forall_skipn'.
Qed.
Lemma as_sub_raw p subs_of : good_conf p -> raw_subs p subs_of -> raw_sub (as_sub p subs_of).
Proof.
  intros G R ls pi cs w L E. cbn [as_sub sp_extract] in E. apply bind_ok in E as ([es w'] & E1 & E). injection E as <- <-.
  apply extract_multiple_raw in E1; [|exact G|exact R|exact L]. apply Forall_map. eapply Forall_impl; [|exact E1]. now intros s [].
Qed.
Definition raw_state (st : quote_state) : Prop := match st with QBlock ls => Forall P ls | _ => True end.
Lemma open_block_raw l bs st bs' : P l -> Forall (Forall P) bs -> open_block l bs = Ok (st, bs') -> raw_state st /\ Forall (Forall P) bs'.
Proof.
  intros L F E. unfold open_block in E. apply bind_ok in E as (c & _ & E). destruct (_ =? _)%N; apply bind_ok in E as (q & Hq & E); injection E as <- <-.
  - split; [exact Logic.I|]. apply Forall_app. split; [exact F|]. repeat constructor. eapply P_slice; eauto.
  - split; [|exact F]. cbn [raw_state]. repeat constructor. eapply P_slice; eauto.
Qed.
Lemma quoted_step_raw st bs q l st' bs' : P l -> raw_state st -> Forall (Forall P) bs -> quoted_step st bs q l = Ok (st', bs') ->
  raw_state st' /\ Forall (Forall P) bs'.
Proof.
  intros L S F E. destruct st as [|qs| |w]; cbn [quoted_step] in E.
  - destruct (is_empty_line l); [injection E as <- <-; auto|]. apply bind_ok in E as (c & _ & E). apply bind_ok in E as ([] & _ & E). eapply open_block_raw; eauto.
  - cbn [raw_state] in S. destruct (is_empty_line l); [injection E as <- <-; split; [apply Forall_app; split; [exact S|now repeat constructor]|exact F]|]. apply bind_ok in E as (c & _ & E).
    destruct (_ && _).
    + apply bind_ok in E as (x & X & E). injection E as <- <-. split; [exact Logic.I|]. apply Forall_app. split; [exact F|]. constructor; [|constructor].
      apply Forall_app. split; [exact S|]. constructor; [eapply P_slice; eauto|constructor].
    + injection E as <- <-. split; [apply Forall_app; split; [exact S|now repeat constructor]|exact F].
  - destruct (is_empty_line l); [injection E as <- <-; auto|]. apply bind_ok in E as (c & _ & E). destruct (_ && _); [eapply open_block_raw; eauto|].
    injection E as <- <-. split; [exact Logic.I|exact F].
  - destruct (is_empty_line l); injection E as <- <-; split; auto; exact Logic.I.
Qed.
Lemma quoted_loop_raw ls : forall st bs e st' bs', Forall (fun x => P (snd x)) ls -> raw_state st -> Forall (Forall P) bs -> quoted_loop st bs ls e = Ok (st', bs') ->
  Forall (Forall P) bs'.
Proof.
  induction ls as [|[q l] t IH]; intros st bs e st' bs' L S F E; cbn [quoted_loop] in E.
  - destruct e; [discriminate|]. injection E as <- <-. exact F.
  - apply Forall_cons_iff in L as [L0 L]. cbn [snd] in L0. apply bind_ok in E as ([st1 bs1] & E1 & E). apply quoted_step_raw in E1 as [S1 F1]; auto. eapply IH; eauto.
Qed.
Lemma quoted_raw : raw_sub quoted_sub.
Proof.
  intros ls pi cs w L E. cbn [quoted_sub sp_extract] in E. unfold quoted_extract in E. apply bind_ok in E as ([st bs] & E1 & E).
  assert (F : Forall (Forall P) bs). { eapply quoted_loop_raw; [| | |exact E1]; [now apply levels_raw|exact Logic.I|constructor]. }
  assert (G : Forall raw (map ChQuoted bs)).
  { apply Forall_map. eapply Forall_impl; [|exact F]. intros b B. split; [constructor|]. split; [exact B|]. intros d D. inversion D. }
  destruct st; try discriminate; injection E as <- _; exact G.
Qed.
Lemma no_subs_raw p : raw_subs p no_subs.
Proof. intros x l [= <-]. constructor. Qed.
(* the parsers of elements in articles *)
Hypothesis Q_none : Q None.
Hypothesis Q_numeric : forall x i, match_numeric x = Some i -> Q (Some i).
Hypothesis Q_paragraph : forall x i, match_paragraph x = Some i -> Q (Some i).
Hypothesis Q_alphabetic : forall x i, match_alphabetic [] x = Some i -> Q (Some i).
Hypothesis Q_subpoint : forall x y i j, match_alphabetic [] x = Some i -> match_alphabetic i y = Some j -> Q (Some j).
Ltac good H := split; [discriminate|]; intros l; let E := fresh in match goal with |- Q ?x => destruct x as [?i|] eqn:E; [exact (H _ _ E)|exact Q_none] end.
Lemma paragraph_good : good_conf paragraph_conf. Proof. good Q_paragraph. Qed.
Lemma numeric_point_good : good_conf numeric_point_conf. Proof. good Q_numeric. Qed.
Lemma numeric_subpoint_good : good_conf numeric_subpoint_conf. Proof. good Q_numeric. Qed.
Lemma alphabetic_point_good : good_conf alphabetic_point_conf. Proof. good Q_alphabetic. Qed.
Lemma alphabetic_subpoint_good : good_conf (alphabetic_subpoint_conf []). Proof. good Q_alphabetic. Qed.
Lemma numeric_point_subs_raw : raw_subs numeric_point_conf numeric_point_subs.
Proof. intros i l [= <-]. constructor; [apply as_sub_raw; [exact alphabetic_subpoint_good|apply no_subs_raw]|constructor]. Qed.
Lemma alphabetic_point_subs_raw : raw_subs alphabetic_point_conf alphabetic_point_subs.
Proof.
  intros x l E. unfold alphabetic_point_subs in E. destruct (extract_identifier alphabetic_point_conf x) as [i|] eqn:X; [|discriminate]. injection E as <-.
  constructor; [apply as_sub_raw; [exact numeric_subpoint_good|apply no_subs_raw]|]. constructor; [|constructor].
  apply as_sub_raw; [|apply no_subs_raw]. good (fun y j => Q_subpoint _ y _ j X).
Qed.
Lemma paragraph_subs_raw : raw_subs paragraph_conf paragraph_subs.
Proof.
  intros i l [= <-]. constructor; [exact quoted_raw|]. constructor; [apply as_sub_raw; [exact alphabetic_point_good|exact alphabetic_point_subs_raw]|].
  constructor; [apply as_sub_raw; [exact numeric_point_good|exact numeric_point_subs_raw]|constructor].
Qed.

Lemma parse_article_raw ls pi a : Forall P ls -> parse_article ls pi = Ok a -> raw (ChArticle a).
Proof.
  unfold parse_article. intros L E. apply bind_ok in E as (l0 & E0 & E). destruct (article_extract l0) as [i|]; [|discriminate].
  apply bind_ok in E as (pos & _ & E). apply bind_ok in E as (fl & Fl & E). destruct (article_parse_body _ _ _) as [x|] eqn:B; [|discriminate].
  injection E as ->. unfold article_parse_body in B. apply bind_ok in B as ([t ls'] & T & B). apply bind_ok in B as (l1 & _ & B). cbv zeta in B.
  apply bind_ok in B as (l2 & _ & B). apply bind_ok in B as (ps & HP & B).
  assert (L' : Forall P ls').
  { eapply article_title_raw; [|exact T]. constructor; [|now apply Forall_skipn']. eapply P_slice; [|exact Fl].
    unfold line_at in E0. destruct (nth_error ls 0) as [x|] eqn:N; [|discriminate]. injection E0 as ->. rewrite Forall_forall in L. apply L. now apply nth_error_In in N. }
  assert (L2 : Forall P (if is_empty_line l1 then skipn 1 ls' else ls')) by (destruct (is_empty_line l1); [now apply Forall_skipn'|exact L']).
  eapply new_article_raw; [|exact B].
  apply Forall_forall. intros p I. apply filter_In in I as [I _]. destruct (opt_eqb _ _ _).
  - apply bind_ok in HP as ([qs w] & P1 & HP). destruct w; [discriminate|]. injection HP as ->. apply extract_multiple_raw in P1; [|exact paragraph_good|exact paragraph_subs_raw|exact L2].
    rewrite Forall_forall in P1. exact (P1 p I).
  - apply bind_ok in HP as (q & P1 & HP). injection HP as <-. destruct I as [<-|[]]. exact (sae_parse_raw _ _ _ _ _ paragraph_good paragraph_subs_raw L2 P1).
Qed.
Definition raw_act_child (c : act_child) : Prop := raw (act_child_child c).
Lemma struct_raw e : HS e -> raw (ChStruct e).
Proof. intros H. split; [constructor|]. split; [exact H|]. intros d D. inversion D. Qed.
Lemma body_parse_raw p ls pi c : Forall P ls -> body_parse p ls pi = Ok c -> raw_act_child c.
Proof.
  intros L. destruct p; cbn [body_parse]; intros E; apply bind_ok in E as (x & E1 & E); injection E as <-; [exact (parse_article_raw _ _ _ L E1)|exact (struct_raw _ (HS_parse _ _ _ E1))].
Qed.
Lemma parse_elements_loop_raw ls e pi r : forall st els cur p prev, Forall (fun x => P (snd x)) ls -> Forall P cur -> Forall raw_act_child els ->
  parse_elements_loop st pi ls e els cur p prev = Ok r -> Forall raw_act_child r.
Proof.
  induction ls as [|[q l] t IH]; intros st els cur p prev L C F E; cbn [parse_elements_loop] in E.
  - destruct e; [discriminate|]. destruct p as [p|]; [|discriminate]. apply bind_ok in E as (x & E1 & E). injection E as <-.
    apply Forall_app. split; [exact F|]. constructor; [exact (body_parse_raw _ _ _ _ C E1)|constructor].
  - apply Forall_cons_iff in L as [L0 L]. cbn [snd] in L0. assert (C' : Forall P (cur ++ [l])) by (apply Forall_app; split; [exact C|now repeat constructor]).
    destruct (negb _); [exact (IH _ _ _ _ _ L C' F E)|]. apply bind_ok in E as (h & _ & E). destruct h as [h|]; [|exact (IH _ _ _ _ _ L C' F E)].
    apply bind_ok in E as (els' & E1 & E). apply bind_ok in E as (st' & _ & E). refine (IH _ _ _ _ _ L (Forall_cons l L0 (Forall_nil P)) _ E).
    destruct p as [p|]; [|injection E1 as <-; exact F]. apply bind_ok in E1 as (x & E2 & E1). injection E1 as <-.
    apply Forall_app. split; [exact F|]. constructor; [exact (body_parse_raw _ _ _ _ C E2)|constructor].
Qed.
Lemma parse_elements_raw st ls pi r : Forall P ls -> parse_elements st ls pi = Ok r -> Forall raw_act_child r.
Proof. intros L. apply parse_elements_loop_raw; [now apply levels_raw|constructor|constructor]. Qed.
Lemma parse_act_raw i d s ls a : Forall P ls -> parse_act i d s ls = Ok a -> Forall raw_act_child (act_children a).
Proof.
  intros L. unfold parse_act. destruct (' (_, _) <- _ ;; _) as [[pre els]|] eqn:E; [|discriminate]. intros [= <-]. apply bind_ok in E as ([p r] & E0 & E).
  apply bind_ok in E as (els' & E1 & E). injection E as <- <-. unfold parse_preamble in E0. apply bind_ok in E0 as (n & _ & E0). injection E0 as _ <-.
  refine (parse_elements_raw _ _ _ _ _ E1). now apply Forall_skipn'.
Qed.

(** * Block amendments *)

(* the identifiers in amendments can be any *)
Hypothesis Q_all : forall i, Q i.
Lemma all_good p : pc_kind p <> KBlockAmendmentContainer -> good_conf p. Proof. intros K. split; [exact K|]. intros l. apply Q_all. Qed.

Lemma block_by_block_raw b ls e : (forall l c, Forall P l -> bp_parse b l = Ok c -> raw c) -> forall cs i cur, Forall (fun x => P (snd x)) ls -> Forall P cur ->
  block_by_block_loop b ls e cur i = Ok cs -> Forall raw cs.
Proof.
  intros R. induction ls as [|[q l] t IH]; intros cs i cur L C E; cbn [block_by_block_loop] in E.
  - destruct e; [discriminate|]. apply bind_ok in E as (c & E1 & E). injection E as <-. constructor; [eauto|constructor].
  - apply Forall_cons_iff in L as [L0 L]. cbn [snd] in L0. assert (C' : Forall P (cur ++ [l])) by (apply Forall_app; split; [exact C|now repeat constructor]).
    apply bind_ok in E as (f & _ & E). destruct f; [|exact (IH _ _ _ L C' E)]. destruct (bp_extract b l) as [j|]; [|exact (IH _ _ _ L C' E)].
    apply bind_ok in E as (c & E1 & E). apply bind_ok in E as (r & E2 & E). injection E as <-. constructor; [eauto|]. exact (IH _ _ _ L (Forall_cons l L0 (Forall_nil P)) E2).
Qed.
Lemma sae_block_raw p subs_of l c : pc_kind p <> KBlockAmendmentContainer -> raw_subs p subs_of -> Forall P l -> bp_parse (sae_block p subs_of) l = Ok c -> raw c.
Proof. intros K R L E. cbn [sae_block bp_parse] in E. apply bind_ok in E as (s & E1 & E). injection E as <-. exact (proj1 (sae_parse_raw _ _ _ _ _ (all_good p K) R L E1)). Qed.
Lemma parser_and_id_raw r b i : get_parser_and_id r = Ok (b, i) -> forall l c, Forall P l -> bp_parse b l = Ok c -> raw c.
Proof.
  unfold get_parser_and_id. intros E. apply bind_ok in E as (o & _ & E). destruct o as [[part cl]|]; [|discriminate].
  apply bind_ok in E as (x & _ & E). apply bind_ok in E as (b' & E1 & E). injection E as <- <-. intros l c.
  destruct cl; try discriminate E1; injection E1 as <-.
  - cbn [article_block bp_parse]. intros L E. apply bind_ok in E as (a & Ea & E). injection E as <-. exact (parse_article_raw _ _ _ L Ea).
  - apply sae_block_raw; [discriminate|]. apply paragraph_subs_raw.
  - apply sae_block_raw; [discriminate|]. apply numeric_point_subs_raw.
  - apply sae_block_raw; [discriminate|]. apply alphabetic_point_subs_raw.
  - apply sae_block_raw; [discriminate|]. apply no_subs_raw.
  - apply sae_block_raw; [discriminate|]. apply no_subs_raw.
Qed.
Lemma parse_block_amendment_raw r ci co ls s : Forall P ls -> parse_block_amendment r ci co ls = Ok s -> raw (ChSae s).
Proof.
  intros L. unfold parse_block_amendment. destruct (children <- _ ;; _) as [x|] eqn:E; [|discriminate]. intros [= ->]. apply bind_ok in E as (cs & E1 & E).
  eapply new_sae_raw; [| |right| | |exact E]; [|reflexivity|discriminate|intros _; discriminate|intros _; apply Q_all]. intros l [= <-]. destruct r as [r|r].
  - apply bind_ok in E1 as ([b i] & E2 & E1). eapply block_by_block_raw; [| | |exact E1]; [exact (parser_and_id_raw _ _ _ E2)|now apply levels_raw|constructor].
  - apply bind_ok in E1 as (es & E2 & E1). injection E1 as <-. apply Forall_map. exact (parse_elements_raw _ _ _ _ L E2).
Qed.
Lemma block_paragraph_raw an p q : raw (ChSae p) -> block_parse_paragraph an p = Ok q -> raw (ChSae q) /\ s_kind q = s_kind p.
Proof.
  intros R. unfold block_parse_paragraph. intros E. apply bind_ok in E as (ct & _ & E).
  assert (K : forall x, Ok p = Ok x -> raw (ChSae x) /\ s_kind x = s_kind p) by (intros x [= <-]; auto).
  destruct ct as [[| | |]|]; try exact (K _ E). destruct (s_children p) as [cs|]; [|discriminate]. destruct (s_intro p) as [intro|]; [|discriminate].
  destruct (10000 <? _); [exact (K _ E)|]. destruct (match split_intro intro with None => _ | Some _ => _ end) as [[ai ci] co].
  apply bind_ok in E as (x & _ & E). destruct (first_block_amendment _) as [pos|]; [|exact (K _ E)].
  apply bind_ok in E as ([] & _ & E). apply bind_ok in E as (ls & HL & E). destruct (parse_block_amendment pos ci co ls) as [b|e] eqn:B.
  - assert (L : Forall P ls) by (apply quoted_block_in in HL; destruct R as (_ & _ & R); exact (R _ (inside_of_sae _ _ HL))).
    destruct R as (_ & [[M _] _] & _). rewrite M in E. eapply new_sae_raw; [| |right| | |exact E]; [|reflexivity|discriminate|intros _; discriminate|intros _; apply Q_all]. intros l [= <-].
    constructor; [exact (parse_block_amendment_raw _ _ _ _ _ L B)|constructor].
  - destruct (is_sub_article_parsing_error e); [exact (K _ E)|discriminate].
Qed.
Lemma raw_paragraphs x : raw (ChArticle x) -> Forall (fun p => raw (ChSae p) /\ s_kind p = KParagraph) (a_paragraphs x).
Proof.
  intros (B & O & D). cbn in O. unfold paragraphs_only in O. rewrite Forall_forall in O. apply Forall_forall. intros p I. split; [|auto].
  inversion B as [|a B'| |]; subst. apply built_article_local in B' as [_ B']. split; [constructor; auto|]. split.
  - apply (D (ChSae p)). constructor. now constructor.
  - intros c C. inversion C; subst. apply D. constructor. econstructor 2; eauto.
Qed.
Lemma block_article_raw an x y : raw (ChArticle x) -> block_parse_article an x = Ok y -> raw (ChArticle y).
Proof.
  intros R E. unfold block_parse_article in E. apply bind_ok in E as (ps & E1 & E). eapply new_article_raw; [|exact E].
  eapply mapM_forall; [|exact (raw_paragraphs _ R)|exact E1]. intros p q [Rp K] Eq. destruct (block_paragraph_raw _ _ _ Rp Eq) as [Rq K']. split; [exact Rq|congruence].
Qed.
Lemma block_act_raw an a b : Forall raw_act_child (act_children a) -> block_parse_act an a = Ok b -> Forall raw_act_child (act_children b).
Proof.
  intros F E. unfold block_parse_act in E. apply bind_ok in E as (cs & E1 & E). injection E as <-.
  cbn [evolve_act act_children]. eapply mapM_forall; [|exact F|exact E1]. intros [e|x] y R; cbn beta iota; intros H.
  - injection H as <-. exact R.
  - apply bind_ok in H as (z & H1 & H). injection H as <-. exact (block_article_raw _ _ _ R H1).
Qed.

Lemma raw_fresh a : Forall raw_act_child (act_children a) -> fresh_act a /\ (forall l, line_in_act a l -> P l) /\ forall e, struct_in_act a e -> HS e.
Proof.
  intros F. rewrite Forall_forall in F.
  assert (R : forall c, in_act a c -> okc c).
  { intros c (x & I & D). destruct (F _ I) as (_ & O & D'). cbn [act_child_child] in *. destruct D as [->|D]; [exact O|]. apply D'. now constructor. }
  split; [constructor|split].
  - intros x I. destruct (F _ I) as (B & O & _). cbn [act_child_child] in *. split; [now inversion B|exact O].
  - intros x I. exact (R _ I).
  - intros s I. exact (proj1 (proj1 (R _ I))).
  - intros s I. exact (proj2 (proj1 (R _ I))).
  - intros s I. exact (proj1 (proj2 (R _ I))).
  - intros l (ls & I & J). specialize (R _ I). cbn in R. rewrite Forall_forall in R. auto.
  - intros e [I|I]; [exact (proj1 (proj2 (F _ I)))|exact (R _ I)].
Qed.
Lemma fresh_raw a : fresh_act a -> (forall l, line_in_act a l -> P l) -> (forall e, struct_in_act a e -> HS e) -> Forall raw_act_child (act_children a).
Proof.
  intros [B HP M C A] L HT. apply Forall_forall. intros [e|x] I; [apply struct_raw, HT; now left|]. unfold raw_act_child. cbn [act_child_child].
  assert (O : forall c, in_act a c -> okc c). { intros [s|y|l|e] X; cbn; auto; [|apply HT; now right]. apply Forall_forall. intros y Y. apply L. exists l. auto. }
  destruct (B x I) as [Bx _]. split; [now constructor|]. split.
  - apply (O (ChArticle x)). exists x. auto.
  - intros d D. apply O. exists x. split; [exact I|]. right. now inversion D.
Qed.
End Raw.

Definition any_line (_ : line) : Prop := True.
Definition any_id (_ : option pystr) : Prop := True.
Definition any_struct (_ : structural_element) : Prop := True.
Lemma any_slice l i j q : any_line l -> l_slice l i j = Ok q -> any_line q. Proof. exact (fun _ _ => Logic.I). Qed.
Ltac anything := try (intros; exact Logic.I).
Lemma parse_act_fresh i d s ls a : parse_act i d s ls = Ok a -> fresh_act a.
Proof.
  intros E. apply (raw_fresh any_line any_id any_struct). eapply parse_act_raw; [exact any_slice| | | | | | | |exact E]; anything. apply Forall_forall. anything.
Qed.
Lemma parse_act_lines (P : line -> Prop) : (forall l i j q, P l -> l_slice l i j = Ok q -> P q) -> forall i d s ls a, Forall P ls -> parse_act i d s ls = Ok a ->
  forall l, line_in_act a l -> P l.
Proof. intros H i d s ls a L E. apply (raw_fresh P any_id any_struct). eapply parse_act_raw; [exact H| | | | | | |exact L|exact E]; anything. Qed.
Lemma parse_act_structs (T : structural_element -> Prop) : (forall k ls e, struct_parse k ls = Ok e -> T e) -> forall i d s ls a, parse_act i d s ls = Ok a ->
  forall e, struct_in_act a e -> T e.
Proof. intros H i d s ls a E. apply (raw_fresh any_line any_id T). eapply parse_act_raw; [exact any_slice|exact H| | | | | | |exact E]; anything. apply Forall_forall. anything. Qed.
Lemma block_act_lines (P : line -> Prop) : (forall l i j q, P l -> l_slice l i j = Ok q -> P q) -> forall an a b, fresh_act a -> (forall l, line_in_act a l -> P l) ->
  block_parse_act an a = Ok b -> fresh_act b /\ forall l, line_in_act b l -> P l.
Proof.
  intros H an a b F L E. destruct (raw_fresh P any_id any_struct b) as (X & Y & _); [|exact (conj X Y)].
  eapply block_act_raw; [exact H| | | | | | | |apply fresh_raw; [|exact F|exact L|]|exact E]; anything.
Qed.
Lemma block_act_structs (T : structural_element -> Prop) : (forall k ls e, struct_parse k ls = Ok e -> T e) -> forall an a b, fresh_act a -> (forall e, struct_in_act a e -> T e) ->
  block_parse_act an a = Ok b -> forall e, struct_in_act b e -> T e.
Proof.
  intros H an a b F L E. apply (raw_fresh any_line any_id T). eapply block_act_raw; [exact any_slice|exact H| | | | | | |apply fresh_raw; [|exact F| |exact L]|exact E]; anything.
Qed.
Lemma block_act_fresh an a b : fresh_act a -> block_parse_act an a = Ok b -> fresh_act b.
Proof. intros F E. exact (proj1 (block_act_lines any_line any_slice an a b F (fun _ _ => Logic.I) E)). Qed.
