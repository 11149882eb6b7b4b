(* Printed acts are layouts. *)
From Coq Require Import Lia.
From Coq Require Import ZifyBool ZifyNat ZifyN.
From Verif Require Import PyBase PyBaseFacts NumModel IdModel LineModel DateModel RefModel TreeModel FixupModel StructModel.
From Verif Require Import NumSpec IdSpec LineSpec RefSpec TreeSpec FixupSpec StructSpec LayoutSpec BodySpec NumProofs IdProofs LineProofs TreeProofs FixupProofs
  StructPatterns StructProofs StructProofs2 StructProofs3 StructProofs4 StructProofs5 LayoutProofs LayoutProofs2 LayoutProofs3 BodyProofs BodyProofs2.
Local Open Scope Z_scope.

(** * Texts that are no headings *)

Lemma roman_head t i u : roman_to_arabic_with_postfix t = Ok i -> exists c v, t ++ u = c :: v /\ In c roman_letters.
Proof.
  unfold roman_to_arabic_with_postfix, text_to_int_roman_with_postfix. intros H. destruct t as [|c t]; [discriminate H|]. exists c, (t ++ u). split; [reflexivity|].
  cbn [length roman_prefix_loop] in H.
  destruct (List.find (fun '(text, _) => str_eqb text (firstn (length text) (c :: t))) roman_numerals) as [[w z]|] eqn:F; [|discriminate H].
  apply find_some in F as [F E]. apply str_eqb_eq in E.
  assert (X : forallb (fun p : pystr * Z => match fst p with [] => false | d :: _ => mem_chr d roman_letters end) roman_numerals = true) by (vm_compute; reflexivity).
  rewrite forallb_forall in X. specialize (X _ F). cbn [fst] in X. destruct w as [|d w]; [discriminate X|]. cbn in E. injection E as -> _. now apply mem_chr_In.
Qed.
Lemma ordinal_letters n t c : ordinal_of n t -> In c t -> ~ (40 <= c <= 41)%N.
Proof.
  intros [R E] I D.
  assert (X : forallb (fun w => forallb (fun c => negb ((40 <=? c) && (c <=? 41))%N) w) hungarian_ordinals = true) by (vm_compute; reflexivity).
  assert (L : length hungarian_ordinals = 100%nat) by (vm_compute; reflexivity).
  rewrite forallb_forall in X. assert (J : In (str_lower t) hungarian_ordinals) by (rewrite E; apply nth_In; lia). specialize (X _ J). rewrite forallb_forall in X.
  assert (Y : In c (str_lower t)). { unfold str_lower. apply in_flat_map. exists c. split; [exact I|]. assert (C : c = 40%N \/ c = 41%N) by lia. destruct C as [-> | ->]; vm_compute; now left. }
  specialize (X _ Y). cbv beta in X. lia.
Qed.
Lemma parenthesis_no_heading s c : In c s -> (40 <= c <= 41)%N -> (forall d t, s = d :: t -> ~ In d roman_letters) -> forall k i, k <> KSubtitle -> ~ heading k s i.
Proof.
  intros I D R k i K H. apply heading_cases in H. destruct k; [| | | |contradiction].
  - destruct H as (t & n & -> & O & _). apply in_app_or in I as [I|I]; [now apply (ordinal_letters n t c)|]. vm_compute in I. lia.
  - destruct H as [(t & n & -> & O & _)|(n & E & _)].
    + apply in_app_or in I as [I|I]; [now apply (ordinal_letters n t c)|]. vm_compute in I. lia.
    + apply nth_error_In in E. vm_compute in E. destruct E as [<-|[<-|[<-|[]]]]; vm_compute in I; lia.
  - destruct H as (t & -> & H). destruct (roman_head t i (u8 ". CÍM") H) as (d & v & E & X). now apply (R _ _ E).
  - destruct H as (t & x & -> & _ & H). destruct (roman_head t i x H) as (d & v & E & X). now apply (R _ _ E).
Qed.
Lemma starts_digit_app a b : starts_digit a -> starts_digit (a ++ b).
Proof. intros (c & t & -> & D). now exists c, (t ++ b). Qed.
Lemma item_no_heading p subs k first i t : class p subs k first -> item_id k first i -> forall k' j, k' <> KSubtitle -> ~ heading k' (header k i ++ t) j.
Proof.
  intros C I k' j K.
  assert (DG : forall n l, numbered i n l -> starts_digit i).
  { intros n l [d A N|d x A N X|d x A N X]; destruct d as [|y d]; try contradiction; inversion A; subst; eexists; eexists; (split; [reflexivity|assumption]). }
  assert (LT : Forall small_letter i -> i <> [] -> ~ heading k' ((i ++ u8 ") ") ++ t) j).
  { intros F N. apply (parenthesis_no_heading _ 41%N); [rewrite <- app_assoc; apply in_or_app; right; now left|lia| |exact K].
    intros d u E X. destruct i as [|y i]; [contradiction|]. injection E as -> _. inversion F; subst. unfold small_letter in *. vm_compute in X. lia. }
  destruct I as [first i n l N _|k first i n l Q N|k q x Q X|k first i Q N].
  - cbn [header]. apply (parenthesis_no_heading _ 40%N); [now left|lia| |exact K]. intros d u [= <- _] X. vm_compute in X. lia.
  - intros H. apply (heading_no_digit _ _ _ K H). destruct Q as [-> | ->]; cbn [header]; apply starts_digit_app, starts_digit_app; eapply DG; exact N.
  - assert (E : header k (q ++ [x]) = (q ++ [x]) ++ u8 ") ") by (destruct Q as [-> | ->]; reflexivity). rewrite E. apply LT; [|now destruct q].
    apply Forall_app. split; [|constructor; [exact X|constructor]]. pose proof (class_start _ _ _ _ C) as [S|(q' & A & S)].
    + change (u8 "1") with ([] ++ [49%N]) in S. apply app_inj_tail in S as [_ S]. discriminate S.
    + apply app_inj_tail in S as [-> _]. exact A.
  - assert (E : header k i = i ++ u8 ") ") by (destruct Q as [-> | ->]; reflexivity). rewrite E. apply LT; destruct N as [-> | ->]; try discriminate; repeat constructor; unfold small_letter; lia.
Qed.

(** * Rendered elements *)

Definition articles_at : pyfloat := f_of_Z 20.
(* a line of an article, below its heading *)
Definition inner (l : line) : Prop :=
  one_line l /\ open_after [l] = 0 /\ l_bold l = false /\ (forall k i, k <> KSubtitle -> ~ heading k (l_content l) i) /\
  (near (Some articles_at) l -> forall i, ~ article_heading (l_content l) i).
Lemma line_not_bold x s : l_bold (line_of x s) = false.
Proof.
  unfold l_bold. assert (X : forall ps, Forall (fun p => p_bold p = false) ps -> forall a, fold_left (fun a p => if p_bold p then (a + length (p_content p))%nat else a) ps a = a).
  { induction 1 as [|p ps B F IH]; intros a; [reflexivity|]. cbn. rewrite B. apply IH. }
  rewrite X; [apply Nat.ltb_ge; cbn; apply Nat.le_0_l|]. destruct s as [|c s]; [constructor|]. constructor; [reflexivity|]. apply Forall_map, Forall_forall. reflexivity.
Qed.
Lemma far x c s : In x margins -> x <> 20 -> ~ near (Some articles_at) (line_of x (c :: s)).
Proof. intros X N H. unfold near in H. rewrite line_indent in H. margin_cases; try contradiction; vm_compute in H; discriminate H. Qed.
Lemma item_chars p subs k first i : class p subs k first -> item_id k first i -> Forall (fun c => (47 <= c <= 122)%N) i.
Proof.
  assert (S : forall s, Forall small_letter s -> Forall (fun c => (47 <= c <= 122)%N) s) by (intros s; apply Forall_impl; unfold small_letter; intros; lia).
  assert (G : forall d, ascii_digits d -> Forall (fun c => (47 <= c <= 122)%N) d) by (intros d; apply Forall_impl; intros; lia).
  assert (NU : forall a n l, numbered a n l -> Forall (fun c => (47 <= c <= 122)%N) a).
  { intros a n l [d X _|d c X _ L|d c X _ L]; auto; apply Forall_app; (split; [auto|]); unfold small_letter in L; repeat constructor; lia. }
  intros C I. destruct I as [f j n l N _|k' f j n l Q N|k' q x Q X|k' f j Q N]; eauto.
  - apply S, Forall_app. split; [|now constructor]. pose proof (class_start _ _ _ _ C) as [D|(q' & A & D)].
    + change (u8 "1") with ([] ++ [49%N]) in D. apply app_inj_tail in D as [_ D]. discriminate D.
    + apply app_inj_tail in D as [-> _]. exact A.
  - apply S. destruct N as [-> | ->]; repeat constructor; unfold small_letter; lia.
Qed.
Lemma header_newline p subs k first i : class p subs k first -> item_id k first i -> ~ In 10%N (header k i).
Proof.
  intros C I. pose proof (item_chars _ _ _ _ _ C I) as P. rewrite Forall_forall in P.
  assert (Q : ~ In 10%N i) by (intros H; specialize (P _ H); cbn in P; lia).
  destruct k; cbn [header]; intros H; repeat (apply in_app_or in H as [H|H]); try contradiction; vm_compute in H; intuition discriminate.
Qed.
Lemma head_inner p subs k first i t : class p subs k first -> match i with Some i => item_id k first i | None => k = KParagraph end -> ordinary t -> plain_text t ->
  inner (line_of (margin_of k) (header_text k i ++ t)).
Proof.
  intros C I O (NL & NH & NA). pose proof (head_rendered _ _ _ _ _ _ C I O) as (x & s & E & NE & Q & X & _).
  assert (E' : header_text k i ++ t = s) by (apply (f_equal l_content) in E; now rewrite !line_content in E).
  unfold inner, one_line. rewrite line_content. split; [|split; [|split; [apply line_not_bold|split]]].
  - intros H. apply in_app_or in H as [H|H]; [|contradiction]. destruct i as [i|]; [now apply (header_newline _ _ _ _ _ C I)|exact H].
  - rewrite E'. now apply quoteless_open.
  - destruct i as [i|]; [now apply (item_no_heading _ _ _ _ _ _ C)|exact NH].
  - intros N j. destruct i as [i|]; [|apply NA]. cbn [header_text] in *. destruct (sae_kind_eqb k KParagraph) eqn:K.
    + assert (k = KParagraph) as -> by (destruct k; try discriminate; reflexivity). cbn [header]. intros (AN & sp & u & _ & A).
      destruct (article_digit j (u8 "." ++ sp ++ u8 "§ " ++ u) AN) as (c & v & A' & D). rewrite A' in A. injection A as <- _. lia.
    + exfalso. destruct (header k i ++ t) as [|c u] eqn:H; [subst s; contradiction|]. revert N. apply far; [destruct C; cbn; tauto|]. destruct C; cbn; try lia; discriminate K.
Qed.
Lemma text_inner x t : ordinary t -> plain_text t -> inner (line_of x t).
Proof.
  intros (_ & Q & _) (NL & NH & NA). unfold inner, one_line. rewrite line_content. repeat split; auto; [now apply quoteless_open|apply line_not_bold].
Qed.
Lemma render_inner :
  (forall k first s, clean k first s -> forall p subs, class p subs k first -> plain_element s -> Forall inner (render s)) /\
  (forall k first i es, cleans k first i es -> forall p subs, class p subs k first -> Forall plain_element es -> Forall inner (flat_map render es)).
Proof.
  apply clean_mutind.
  - intros k first i t O I p subs C P. cbn [render app]. constructor; [|constructor]. eapply head_inner; eauto. apply P. constructor.
  - intros k first i t ck cf es w O I CL CS IH LEN W p subs C P. destruct (child_class _ _ _ _ _ _ _ C I CL) as (cp & csubs & CC). cbn [render app].
    constructor; [eapply head_inner; eauto; apply P; constructor|]. apply Forall_app. split.
    + rewrite flat_map_concat_map, map_map, <- flat_map_concat_map. eapply IH; [exact CC|]. apply Forall_forall. intros e E u U. apply P. eapply text_in_part; [|exact U]. now apply in_map.
    + destruct w as [w|]; [|constructor]. constructor; [|constructor]. apply text_inner; [apply W|]. apply P. constructor.
  - intros k first i e I CE IH SI p subs C P. cbn [flat_map]. rewrite app_nil_r. inversion P; subst. eapply IH; eauto.
  - intros k first i j e es I CE IH SI NX CS IHS p subs C P. inversion P; subst. cbn [flat_map]. apply Forall_app. split; [eapply IH|eapply IHS]; eauto.
Qed.
Lemma paragraphs_inner ps : clean_paragraphs ps -> Forall plain_element ps -> Forall inner (flat_map render ps).
Proof.
  intros [p C NI|qs C] P; [inversion P; subst; cbn [flat_map]; rewrite app_nil_r; eapply (proj1 render_inner); eauto using class_paragraph|].
  eapply (proj2 render_inner); eauto using class_paragraph.
Qed.

(** * Bodies *)

Lemma calm_inner strict last ls : Forall inner ls -> forall previous, exists previous', calm_lines strict last (Some articles_at) previous 0 ls previous'.
Proof.
  induction 1 as [|l ls (O & Q & B & H & A) F IH]; intros previous; [eexists; constructor|]. destruct (IH l) as [previous' C]. exists previous'. apply calm_line; [reflexivity| |now rewrite Q].
  split; [|congruence]. split; [exact A|]. intros k i K X. now apply H in X.
Qed.
Lemma inner_balanced ls : Forall inner ls -> balanced 0 ls.
Proof. induction 1 as [|l ls (_ & Q & _) F IH]; [constructor|]. constructor; rewrite Q; [lia|exact IH]. Qed.
Lemma inner_one ls : Forall inner ls -> Forall one_line ls.
Proof. apply Forall_impl. now intros l [O _]. Qed.
Lemma bold_content_of x s : l_content (bold_of x s) = s.
Proof. destruct s as [|c s]; [reflexivity|]. unfold l_content. cbn. f_equal. induction s as [|d s IH]; [reflexivity|]. cbn. now rewrite IH. Qed.
Lemma bold_is_bold x c s : l_bold (bold_of x (c :: s)) = true.
Proof.
  unfold l_bold. assert (X : forall ps, Forall (fun p => p_bold p = true) ps -> forall a, fold_left (fun a p => if p_bold p then (a + length (p_content p))%nat else a) ps a = fold_left (fun a p => (a + length (p_content p))%nat) ps a).
  { induction 1 as [|p ps B F IH]; intros a; [reflexivity|]. cbn. rewrite B. apply IH. }
  assert (Y : forall ps a, (a <= fold_left (fun a p => (a + length (p_content p))%nat) ps a)%nat).
  { induction ps as [|p ps IH]; intros a; [reflexivity|]. cbn. etransitivity; [|apply IH]. lia. }
  rewrite X.
  - cbn [bold_of l_parts fold_left p_content length]. pose proof (Y (map (fun c0 => mk_part (f_of_Z 5) [c0] true) s) 1%nat) as Z. cbn [Nat.add] in *. lia.
  - constructor; [reflexivity|]. apply Forall_map, Forall_forall. reflexivity.
Qed.
Lemma quoteless_bold x s : no_quotes s -> open_after [bold_of x s] = 0.
Proof.
  intros Q. rewrite open_after_cons, bold_content_of, quote_level_diff_spec. unfold opening, closing.
  rewrite !(proj1 (count_occ_not_In N.eq_dec _ _)); [reflexivity| | |]; intros H; apply Q in H; tauto.
Qed.
Lemma single_balanced l : open_after [l] = 0 -> balanced 0 [l].
Proof. intros Q. constructor; rewrite Q; [lia|constructor]. Qed.
Lemma layout_same pi k first l0 l0' ls s : typed l0' -> l_content l0' = l_content l0 -> layout pi k first (l0 :: ls) s -> layout pi k first (l0' :: ls) s.
Proof.
  intros T E L. assert (HH : forall i l1, header_of k first i l0 l1 -> header_of k first i l0' l1).
  { intros i l1 (_ & T1 & H). split; [exact T|]. split; [exact T1|]. unfold begins_with in *. rewrite E. exact H. }
  inversion L; subst.
  - eapply layout_text; eauto. eapply balanced_head; [|eassumption]. now apply open_same.
  - eapply layout_parts; eauto. eapply balanced_head; [|eassumption]. now apply open_same.
  - eapply layout_quoted; eauto. eapply balanced_head; [|eassumption]. now apply open_same.
Qed.
Lemma untitled_layout i p t rest : article_number i -> clean KParagraph (u8 "1") p -> s_identifier p = None -> plain_element p -> render p = line_of 20 t :: rest -> (forall u, t <> 91%N :: u) ->
  article_layout true (line_of 20 (i ++ u8 ". § " ++ t) :: rest) (mk_article i None [p]) /\ Forall inner rest /\ no_quotes t /\ ~ In 10%N t.
Proof.
  intros N C SI P R NB. destruct (proj1 render_layout _ _ _ C _ _ class_paragraph) as [L (t' & rest' & R' & O & F)].
  rewrite SI, R in R'. cbn [header_text app margin_of] in R'. rewrite R in L.
  assert (t' = t) as -> by (apply (f_equal (map l_content)) in R'; cbn [map] in R'; rewrite !line_content in R'; congruence). clear R'.
  pose proof (proj1 render_inner _ _ _ C _ _ class_paragraph P) as IN. rewrite R in IN. inversion IN as [|? ? IL IR]; subst.
  assert (NL : ~ In 10%N t) by (destruct IL as [NL _]; unfold one_line in NL; now rewrite line_content in NL).
  split; [|split; [exact IR|split; [exact (proj1 (proj2 O))|exact NL]]].
  set (l0 := line_of 20 (i ++ u8 ". § " ++ t)).
  assert (E0 : l_content l0 = i ++ u8 "." ++ u8 " " ++ u8 "§ " ++ t) by (unfold l0; now rewrite line_content).
  set (n := List.length (i ++ u8 "." ++ u8 " " ++ u8 "§ ")).
  assert (T0 : typed l0) by apply line_typed.
  destruct (slice_char_ok l0 (Z.of_nat n) None T0) as (l1 & S & T1 & _).
  { rewrite from_end_nonneg by lia. lia. } { cbn [the_end]. rewrite from_end_nonneg by lia. lia. }
  pose proof (slice_drop _ _ _ (char_parts_single _ T0) S) as C1.
  assert (C1' : l_content l1 = t).
  { rewrite C1, E0. unfold n. replace (i ++ u8 "." ++ u8 " " ++ u8 "§ " ++ t) with ((i ++ u8 "." ++ u8 " " ++ u8 "§ ") ++ t) by (now rewrite <- !app_assoc).
    rewrite skipn_app, skipn_all, Nat.sub_diag. reflexivity. }
  destruct O as (NE & Q & O). destruct t as [|c t]; [contradiction|].
  apply (layout_article true i [32%N] l0 l1 (c :: t) rest None (l1 :: rest) [] (l1 :: rest)); auto.
  - eapply untitled; [exact C1'|]. intros ->. now apply (NB t).
  - apply layout_one; [intros B; apply blank_content in B; congruence| |congruence].
    eapply layout_same; [exact T1| |exact L]. now rewrite line_content.
Qed.

Lemma article_chars i : article_number i -> Forall (fun c => (47 <= c <= 90)%N) i.
Proof.
  assert (G : forall d, ascii_digits d -> Forall (fun c => (47 <= c <= 90)%N) d) by (intros d; apply Forall_impl; intros; lia).
  induction 1 as [d A|d c A NE L|b i A NE NC N IH]; auto; apply Forall_app; (split; [auto|]).
  - unfold capital_letter in L. repeat constructor; lia.
  - constructor; [lia|exact IH].
Qed.
Lemma subtitle_article i : subtitle_number i -> article_number i.
Proof. intros []; now constructor. Qed.
Lemma fine_app a b : no_quotes a /\ ~ In 10%N a -> no_quotes b /\ ~ In 10%N b -> no_quotes (a ++ b) /\ ~ In 10%N (a ++ b).
Proof.
  intros [A A'] [B B']. split; [intros c H|intros H]; apply in_app_or in H as [H|H]; auto.
Qed.
Lemma article_fine i : article_number i -> no_quotes i /\ ~ In 10%N i.
Proof.
  intros N. apply article_chars in N. rewrite Forall_forall in N. split; [intros c H|intros H]; specialize (N _ H); cbn in N; lia.
Qed.
Ltac fine_literal := let c := fresh in let H := fresh in split; [intros c H|intros H]; vm_compute in H; lia.
Lemma printed_none last ls : printed last [] ls -> ls = [].
Proof. now inversion 1. Qed.
Lemma calm_text strict last x t : plain_text t -> forall y previous, calm strict last x previous (line_of y t).
Proof.
  intros (_ & NH & NA) y previous. split; [|rewrite line_not_bold; discriminate]. split; rewrite line_content; [auto|]. intros k i K H. now apply NH in H.
Qed.
Lemma near_articles x c s : x = None \/ x = Some articles_at -> near x (line_of 20 (c :: s)).
Proof. intros [-> | ->]; cbn [near]; [exact Logic.I|]. rewrite line_indent. vm_compute. reflexivity. Qed.
Lemma starts_large last x previous l k i t b : k <> KSubtitle -> counted true last k i -> starts true last x previous l (mk_struct k i t b).
Proof. intros K C. unfold starts. cbn. destruct k; try contradiction; exact C. Qed.

Lemma printed_layout last cs ls : printed last cs ls -> forall x previous, x = None \/ x = Some articles_at -> body_layout true true last x previous ls cs.
Proof.
  induction 1 as [last|last k i t s cs ls K H NS NL NQ CO TE PT TQ P IH|last n s cs ls SP CO P IH|last i t cs ls SN CO NL NQ NA P IH|last i title ps cs ls N NL NQ CP PP P IH|last i p t rest cs ls N C SI PP R NB P IH];
    intros x previous X.
  - constructor.
  - change (line_of 20 s :: line_of 20 t :: ls) with ([line_of 20 s; line_of 20 t] ++ ls).
    pose proof (quoteless_open 20 _ NQ) as Q1. pose proof (quoteless_open 20 _ TQ) as Q2.
    eapply layout_with_struct with (previous' := line_of 20 t); [| | | | |now apply IH].
    + apply struct_titled; try (now rewrite line_content); [exact K|now apply one_text].
    + now apply starts_large.
    + constructor; rewrite Q1; [lia|]. now apply single_balanced.
    + constructor; [|constructor; [|constructor]]; unfold one_line; rewrite line_content; [exact NL|apply PT].
    + rewrite Q1. apply calm_line; [reflexivity|now apply calm_text|constructor].
  - change (line_of 20 s :: ls) with ([line_of 20 s] ++ ls).
    assert (S : no_quotes s /\ ~ In 10%N s).
    { apply nth_error_In in SP. vm_compute in SP. destruct SP as [<-|[<-|[<-|[]]]]; (split; [intros c H; vm_compute in H|intros H; vm_compute in H]); lia. }
    destruct S as [NQ NL]. pose proof (quoteless_open 20 _ NQ) as Q1.
    eapply layout_with_struct with (previous' := line_of 20 s); [| | | | |now apply IH].
    + apply struct_special. now rewrite line_content.
    + now apply starts_large.
    + now apply single_balanced.
    + constructor; [|constructor]. unfold one_line. now rewrite line_content.
    + constructor.
  - set (s := i ++ u8 ". " ++ t) in *. change (bold_of 20 s :: ls) with ([bold_of 20 s] ++ ls).
    destruct (article_digit i (u8 ". " ++ t) (subtitle_article _ SN)) as (d & u & ES & D). fold s in ES.
    assert (Q : no_quotes s /\ ~ In 10%N s).
    { unfold s. repeat apply fine_app; auto using article_fine, subtitle_article; fine_literal. }
    destruct Q as [Q NS]. pose proof (quoteless_bold 20 _ Q) as Q1.
    assert (NI : i <> []) by (destruct SN as [e|e]; [assumption|now destruct e]).
    eapply layout_with_struct with (previous' := bold_of 20 s); [| | | | |now apply IH].
    + apply struct_subtitle; [rewrite bold_content_of; now constructor|]. exists [bold_of 20 s]. split.
      * apply picks_keep; [|constructor]. intros B. apply blank_content in B. rewrite bold_content_of, ES in B. discriminate B.
      * cbn [map]. rewrite bold_content_of. change [s] with ([] ++ [s]). eapply joined_first; [constructor|reflexivity].
    + unfold starts. cbn [se_kind se_identifier]. split; [rewrite ES; apply bold_is_bold|]. split.
      * split; rewrite bold_content_of; [auto|]. intros k j K H. exfalso. apply (heading_no_digit _ _ _ K H). rewrite ES. now exists d, u.
      * destruct i; [contradiction|exact CO].
    + now apply single_balanced.
    + constructor; [|constructor]. unfold one_line. now rewrite bold_content_of.
    + constructor.
  - pose proof (paragraphs_inner _ CP PP) as IN. pose proof (render_article_layout _ _ _ N NL CP) as AL. unfold render_article in *.
    set (s := i ++ u8 ". § [" ++ title ++ u8 "]") in *.
    destruct (article_digit i (u8 ". § [" ++ title ++ u8 "]") N) as (d & u & ES & D). fold s in ES.
    assert (Q : no_quotes s /\ ~ In 10%N s).
    { unfold s. repeat apply fine_app; auto using article_fine, subtitle_article; fine_literal. }
    destruct Q as [Q NS]. pose proof (quoteless_open 20 _ Q) as Q1.
    assert (I0 : l_indent (line_of 20 s) = articles_at) by (rewrite ES; apply line_indent).
    destruct (calm_inner true last _ IN (line_of 20 s)) as [previous' CL].
    eapply layout_with_article with (previous' := previous'); [exact AL| | | | |].
    + rewrite ES. now apply near_articles.
    + constructor; rewrite Q1; [lia|]. now apply inner_balanced.
    + constructor; [|now apply inner_one]. unfold one_line. now rewrite line_content.
    + now rewrite Q1, I0.
    + apply IH. right. now rewrite I0.
  - destruct (untitled_layout _ _ _ _ N C SI PP R NB) as (AL & IN & TQ & TN).
    set (s := i ++ u8 ". § " ++ t) in *.
    destruct (article_digit i (u8 ". § " ++ t) N) as (d & u & ES & D). fold s in ES.
    assert (Q : no_quotes s /\ ~ In 10%N s).
    { unfold s. repeat apply fine_app; auto using article_fine, subtitle_article; fine_literal. }
    destruct Q as [Q NS]. pose proof (quoteless_open 20 _ Q) as Q1.
    assert (I0 : l_indent (line_of 20 s) = articles_at) by (rewrite ES; apply line_indent).
    destruct (calm_inner true last _ IN (line_of 20 s)) as [previous' CL].
    eapply layout_with_article with (previous' := previous'); [exact AL| | | | |].
    + rewrite ES. now apply near_articles.
    + constructor; rewrite Q1; [lia|]. now apply inner_balanced.
    + constructor; [|now apply inner_one]. unfold one_line. now rewrite line_content.
    + now rewrite Q1, I0.
    + apply IH. right. now rewrite I0.
Qed.
Lemma printed_act_layout a lines : printed_act a lines -> act_layout a lines.
Proof.
  intros (pre & body & -> & P & NE & PR). destruct (act_preamble a) as [|c t] eqn:E.
  - subst pre. apply (layout_act a [] EMPTY_LINE body); [constructor|rewrite E; exists []; split; constructor|now apply printed_layout; [|left]|exact NE].
  - destruct PR as [-> PT]. apply (layout_act a [line_of 20 (c :: t)] (line_of 20 (c :: t)) body); [|rewrite E; now apply one_text|now apply printed_layout; [|left]|exact NE].
    eapply preamble_line; [unfold one_line; rewrite line_content; apply PT|now apply calm_text|constructor].
Qed.
Lemma printed_parsed a lines : printed_act a lines -> parse_act (act_identifier a) (act_publication_date a) (act_subject a) lines = Ok a.
Proof. intros H. apply act_parsed; auto. now apply printed_act_layout. Qed.

(** * Block amendments *)

Lemma container_of (cs : list act_child) intro wrap : cs <> [] ->
  new_sae KBlockAmendmentContainer None None intro (Some (map act_child_child cs)) wrap NO_META =
  Ok (mk_sae KBlockAmendmentContainer None None intro (Some (map act_child_child cs)) wrap NO_META).
Proof.
  intros N. apply new_sae_ok. split; [reflexivity|]. constructor; cbn [s_text s_children s_kind s_intro s_wrap_up].
  - contradiction.
  - destruct cs; [contradiction|discriminate].
  - contradiction.
  - intros cs' c [= <-] H. apply in_map_iff in H as ([e|a] & <- & _); constructor.
Qed.
Lemma block_parsed r intro wrap lead previous body cs : calm_lines false no_numbers None EMPTY_LINE 0 lead previous -> balanced 0 lead -> Forall one_line lead ->
  body_layout false false no_numbers None previous body cs -> cs <> [] ->
  parse_block_amendment (ASRef r) intro wrap (lead ++ body) =
  Ok (mk_sae KBlockAmendmentContainer None None intro (Some (map act_child_child cs)) wrap NO_META).
Proof.
  intros C B O BL N. unfold parse_block_amendment. change (create_parsers false) with (mk_state false no_numbers None).
  rewrite (elements_parsed _ _ _ _ _ _ _ _ C B O BL N). cbn [bind]. now rewrite container_of.
Qed.
Lemma block_sound r intro wrap lines s : Forall fine lines -> parse_block_amendment (ASRef r) intro wrap lines = Ok s ->
  exists lead body cs, lines = lead ++ body /\ open_after lead = 0 /\ body_in false no_numbers body cs /\ cs <> [] /\
    s = mk_sae KBlockAmendmentContainer None None intro (Some (map act_child_child cs)) wrap NO_META.
Proof.
  intros F H. unfold parse_block_amendment in H. destruct (bind _ _) as [s'|] eqn:E in H; [|discriminate]. injection H as ->.
  apply bind_ok in E as (ch & E & W). apply bind_ok in E as (cs & E & X). injection X as <-. apply parse_elements_sound in E as (lead & body & -> & O & B & N); [|exact F].
  apply new_sae_ok in W as [-> _]. exists lead, body, cs. auto.
Qed.
(* texts that are plain, by what the model finds in them *)
Definition looks_plain (t : pystr) : bool :=
  negb (mem_chr 10%N t) &&
  forallb (fun k => match struct_extract k (line_of 20 t) with Ok None => true | _ => false end) [KBook; KPart; KTitle; KChapter] &&
  match article_extract (line_of 20 t) with None => true | Some _ => false end.
Lemma looks_plain_ok t : looks_plain t = true -> plain_text t.
Proof.
  unfold looks_plain. intros H. apply andb_true_iff in H as [H A]. apply andb_true_iff in H as [N H].
  assert (NL : ~ In 10%N t) by (intros I; apply mem_chr_In in I; rewrite I in N; discriminate).
  split; [exact NL|]. rewrite forallb_forall in H. split.
  - intros k i K X. assert (I : In k [KBook; KPart; KTitle; KChapter]) by (destruct k; cbn; tauto). specialize (H _ I).
    pose proof (struct_extract_heading k (line_of 20 t) i) as E. rewrite line_content in E. apply (E NL) in X. rewrite X in H. discriminate H.
  - intros i X. pose proof (article_extract_spec (line_of 20 t) i) as E. rewrite line_content in E. apply (E NL) in X. rewrite X in A. discriminate A.
Qed.
Fixpoint element_plain (s : sae) : bool :=
  match s with
  | mk_sae _ _ t n cs w _ =>
      let o := fun t => match t with Some t => looks_plain t | None => true end in
      o t && o n && o w && match cs with Some cs => forallb (fun c => match c with ChSae e => element_plain e | _ => true end) cs | None => true end
  end.
Lemma element_plain_ok s : element_plain s = true -> plain_element s.
Proof.
  intros H t T. induction T as [k i t n cs w m|k i t n cs w m|k i t n cs w m|k i t n cs w m e u I T IH]; cbn [element_plain] in H;
    apply andb_true_iff in H as [H ?]; apply andb_true_iff in H as [H ?]; apply andb_true_iff in H as [H ?]; auto using looks_plain_ok.
  match goal with F : forallb _ _ = true |- _ => rewrite forallb_forall in F; specialize (F _ I); cbn in F; auto end.
Qed.
