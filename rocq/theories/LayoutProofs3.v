(* Layouts of articles; rendered trees are layouts. *)
From Coq Require Import Lia.
From Coq Require Import ZifyBool ZifyNat ZifyN.
From Verif Require Import PyBase PyBaseFacts NumModel IdModel LineModel DateModel RefModel TreeModel FixupModel StructModel.
From Verif Require Import NumSpec IdSpec LineSpec RefSpec TreeSpec FixupSpec StructSpec LayoutSpec NumProofs IdProofs LineProofs TreeProofs FixupProofs
  StructPatterns StructProofs StructProofs2 StructProofs3 StructProofs4 StructProofs5 LayoutProofs LayoutProofs2.
Local Open Scope Z_scope.

(** * Articles *)

Lemma paragraphs_parsed pi ls ps : paragraphs_layout pi ls ps ->
  exists l t, ls = l :: t /\ is_empty_line l = false /\
    (if opt_eqb str_eqb (extract_identifier paragraph_conf l) (Some (pc_first paragraph_conf)) then
       ' (ps, wrap_up) <- extract_multiple paragraph_conf paragraph_subs ls pi ;;
       match wrap_up with None => Ok ps | Some _ => Err ValueError end
     else p <- parse_paragraph ls pi ;; Ok [p]) = Ok ps /\
    Forall (fun p => s_kind p = KParagraph) ps /\
    ((exists p, ps = [p] /\ s_identifier p = None) \/ Forall (fun p => s_identifier p <> None) ps).
Proof.
  intros [l t p NB LY NI|ls' ps' B LY].
  - exists l, t. split; [reflexivity|].
    destruct (proj1 (layout_parsed pi) _ _ _ _ LY _ _ class_paragraph) as [P K].
    assert (EL : is_empty_line l = false) by (destruct (is_empty_line l) eqn:E; [apply not_empty_spec in E; contradiction|reflexivity]).
    split; [exact EL|].
    assert (X : exists l1, header_of KParagraph (u8 "1") (s_identifier p) l l1) by (inversion LY; subst; cbn; eauto).
    destruct X as [l1 H]. destruct (header_parsed _ _ _ _ _ _ _ class_paragraph H) as (E & _). rewrite E.
    split; [|split; [constructor; [exact K|constructor]|]].
    + destruct (opt_eqb str_eqb (s_identifier p) (Some (pc_first paragraph_conf))) eqn:Q.
      * exfalso. destruct (s_identifier p) as [j|]; [|discriminate]. cbn [opt_eqb] in Q. apply str_eqb_eq in Q. subst j. now apply NI.
      * unfold parse_paragraph. rewrite P. reflexivity.
    + destruct (s_identifier p) eqn:I; [right; constructor; [congruence|constructor]|left; eauto].
  - pose proof (layouts_start _ _ _ _ _ _ _ LY) as ST. pose proof ST as (l & t & -> & BW & I). exists l, t. split; [reflexivity|].
    destruct BW as [u BW]. split; [unfold is_empty_line; destruct l as [[|] ?]; [discriminate|reflexivity]|].
    rewrite (extract_item _ _ _ _ _ l class_paragraph I) by (now exists u). cbn [opt_eqb]. rewrite str_eqb_refl.
    pose proof (proj2 (layout_parsed pi) _ _ _ _ _ _ LY _ _ class_paragraph B) as PL.
    pose proof PL as (gs & lg & es' & e & kept & _ & _ & _ & _ & _ & KS & _).
    rewrite (list_extracted _ _ _ _ _ _ _ _ class_paragraph PL ST) by (now right). cbn [bind]. split; [reflexivity|]. split; [exact KS|]. right.
    assert (X : forall k first i ls es w, layouts pi k first i ls es w -> Forall (fun p => s_identifier p <> None) es).
    { induction 1 as [? ? ? ? ? ? ? ? ? ? ? ? ? SI|? ? ? ? ? ? ? ? ? ? ? ? ? ? ? SI ? ? ? IH]; constructor; auto; congruence. }
    eapply X, LY.
Qed.

Lemma filter_all {A} (f : A -> bool) l : Forall (fun x => f x = true) l -> List.filter f l = l.
Proof. induction 1 as [|x l E F IH]; [reflexivity|]. cbn. now rewrite E, IH. Qed.

Lemma section_index i sp t : article_number i -> sp = [] \/ sp = [32%N] ->
  index_sub (u8 "§ ") (i ++ u8 "." ++ sp ++ u8 "§ " ++ t) = Ok (List.length (i ++ u8 "." ++ sp)).
Proof.
  intros N S. unfold index_sub.
  replace (i ++ u8 "." ++ sp ++ u8 "§ " ++ t) with ((i ++ u8 "." ++ sp) ++ (167%N :: [32%N]) ++ t) by (now rewrite <- !app_assoc).
  change (u8 "§ ") with (167%N :: [32%N]). rewrite find_sub_chr; [reflexivity|].
  apply article_number_chars in N. rewrite Forall_forall in N. intros H. apply in_app_or in H as [H|H]; [apply N in H; lia|].
  destruct S as [->| ->]; cbn in H; lia.
Qed.
Lemma article_parsed pi ls a : article_layout pi ls a -> parse_article ls pi = Ok a.
Proof.
  intros [i sp l0 l1 t ls' title rest bl body ps N SP C NL SL TI -> FB LB PL].
  unfold parse_article. cbn [line_at nth_error bind].
  assert (S : section_of (l_content l0) i t) by (exists sp; auto).
  unfold article_extract. rewrite (match_article_make _ _ _ N S NL).
  rewrite C, (section_index i sp t N SP). cbn [bind].
  replace (List.length (i ++ u8 "." ++ sp) + 2)%nat with (List.length (i ++ u8 "." ++ sp ++ u8 "§ ")) by (rewrite !app_length; cbn; lia).
  rewrite SL. cbn [bind skipn]. unfold article_parse_body. rewrite (article_title_complete _ _ _ TI). cbn [bind].
  destruct (paragraphs_parsed _ _ _ PL) as (l & u & -> & EL & P & K & W).
  destruct bl as [|b [|? ?]]; [| |cbn in LB; lia].
  - cbn [app line_at nth_error bind]. rewrite EL. cbv zeta. cbn [line_at nth_error bind]. rewrite P. cbn [bind].
    rewrite filter_all. { now rewrite (proj2 (new_article_ok i title ps (mk_article i title ps)) (conj eq_refl W)). }
    eapply Forall_impl; [|exact K]. cbn. intros p ->. reflexivity.
  - cbn [app line_at nth_error bind]. rewrite (blank_empty _ (Forall_inv FB)). cbv zeta. cbn [skipn line_at nth_error bind]. rewrite P. cbn [bind].
    rewrite filter_all. { now rewrite (proj2 (new_article_ok i title ps (mk_article i title ps)) (conj eq_refl W)). }
    eapply Forall_impl; [|exact K]. cbn. intros p ->. reflexivity.
Qed.

(** * Rendering *)

Lemma line_typed x s : typed (line_of x s).
Proof. destruct s as [|c s]; [constructor|]. constructor; [reflexivity|]. cbn. apply Forall_map, Forall_forall. reflexivity. Qed.
Lemma line_content x s : l_content (line_of x s) = s.
Proof. destruct s as [|c s]; [reflexivity|]. unfold l_content. cbn. f_equal. induction s as [|d s IH]; [reflexivity|]. cbn. now rewrite IH. Qed.
Lemma line_indent x c s : l_indent (line_of x (c :: s)) = f_of_Z x.
Proof. reflexivity. Qed.

Definition quoteless (s : pystr) : Prop := forall c, In c s -> c <> 8220%N /\ c <> 8221%N /\ c <> 8222%N.
Definition margins : list Z := [20; 30; 40; 50; 60; 70].
(* a rendered line that starts at x0 or further to the right *)
Definition rendered (x0 : Z) (l : line) : Prop :=
  exists x s, l = line_of x s /\ s <> [] /\ quoteless s /\ In x margins /\ x0 <= x.

Lemma quoteless_app a b : quoteless a -> quoteless b -> quoteless (a ++ b).
Proof. intros A B c H. apply in_app_or in H as [H|H]; auto. Qed.
Lemma quoteless_open x s : quoteless s -> open_after [line_of x s] = 0.
Proof.
  intros Q. rewrite open_after_cons, line_content, quote_level_diff_spec. unfold opening, closing.
  rewrite !(proj1 (count_occ_not_In N.eq_dec _ _)); [reflexivity| | |]; intros H; apply Q in H; tauto.
Qed.
Lemma rendered_balanced x0 ls : Forall (rendered x0) ls -> balanced 0 ls.
Proof.
  induction 1 as [|l ls (x & s & -> & NE & Q & _) F IH]; [constructor|]. constructor; rewrite (quoteless_open _ _ Q); [lia|exact IH].
Qed.
Lemma rendered_less x0 x1 l : x1 <= x0 -> rendered x0 l -> rendered x1 l.
Proof. intros L (x & s & H1 & H2 & H3 & H4 & H5). exists x, s. repeat split; auto; try lia; apply H3; assumption. Qed.
Lemma outside_all (P : line -> Prop) ls : Forall P ls -> forall q, outside P q ls.
Proof. induction 1 as [|l ls H F IH]; intros q; constructor; auto. Qed.
Lemma rendered_nonblank x0 ls : Forall (rendered x0) ls -> without_blanks ls ls.
Proof.
  induction 1 as [|l ls (x & s & -> & NE & _) F IH]; [constructor|]. apply picks_keep; [|exact IH]. intros B. apply blank_content in B.
  rewrite line_content in B. contradiction.
Qed.
Ltac margin_cases :=
  repeat match goal with H : In ?x margins |- _ => cbn in H; repeat (destruct H as [H|H]; [try subst x|]); [..|contradiction H] end.
Lemma deeper_rendered x y : In x margins -> In y margins -> x + 10 <= y -> forall c s, stands_deeper (f_of_Z x) (line_of y (c :: s)).
Proof.
  intros X Y L c s. unfold stands_deeper. rewrite line_indent. margin_cases; try lia; split; vm_compute; reflexivity.
Qed.
Lemma indent_rendered x y : In x margins -> In y margins -> f_ltb (f_of_Z y) (f_add (f_of_Z x) (f_of_Z 1)) = (y <=? x).
Proof. intros X Y. margin_cases; vm_compute; reflexivity. Qed.
Lemma header_quoteless p subs k first i : class p subs k first -> item_id k first i -> quoteless (header k i).
Proof.
  intros C I. pose proof (item_plain _ _ _ _ _ C I) as P.
  assert (Q : quoteless i).
  { intros c H. unfold plain in P. rewrite Forall_forall in P. specialize (P c H). cbn in P. lia. }
  assert (X : quoteless (u8 "(") /\ quoteless (u8 ") ") /\ quoteless (u8 ". ")).
  { split; [|split]; intros c H; cbn in H; lia. }
  destruct X as (X1 & X2 & X3). destruct k; cbn [header]; repeat apply quoteless_app; auto. intros c [].
Qed.

Lemma child_first k i ck cf : child_list k i ck cf -> item_id ck cf cf.
Proof.
  assert (N : exists n l, numbered (u8 "1") n l).
  { exists (digits_val (u8 "1")), None. apply (numbered_plain (u8 "1")); [repeat constructor; discriminate|discriminate]. }
  destruct N as (n & l & N).
  intros [j|j|j|j|j].
  - apply (item_letter _ [] 97%N); [auto|split; discriminate].
  - eapply item_number; eauto.
  - apply (item_letter _ [] 97%N); [auto|split; discriminate].
  - eapply item_number; eauto.
  - apply (item_letter _ j 97%N); [auto|split; discriminate].
Qed.
Lemma child_class p subs k first i ck cf : class p subs k first -> match i with Some i => item_id k first i | None => k = KParagraph end ->
  child_list k i ck cf -> exists p subs, class p subs ck cf.
Proof.
  intros C I CL. destruct (subs_tests p subs k first i C) as (tests & _ & _ & _ & _ & CH & _).
  - intros ->. exact I.
  - intros j ->. exact I.
  - destruct (CH _ _ CL) as (cp & cs & CC & _). eauto.
Qed.
Lemma child_margin k i ck cf : child_list k i ck cf -> margin_of ck = margin_of k + 20 /\ In (margin_of k) margins /\ In (margin_of k + 10) margins /\ In (margin_of ck) margins.
Proof. intros []; cbn; repeat split; tauto. Qed.

Lemma class_start p subs k first : class p subs k first -> list_start first.
Proof. intros [| | |q Q|]; (now left) || right; [now exists []|now exists q]. Qed.
Lemma ordinary_quiet p subs k first i x y t : class p subs k first -> ordinary t -> quiet k first i x (line_of y t).
Proof. intros C (_ & _ & O) j I [u B]. exfalso. rewrite line_content in B. now apply (O k first j u (class_start _ _ _ _ C) I). Qed.
Lemma ordinary_starts p subs k first i x t : class p subs k first -> match i with Some i => item_id k first i | None => k = KParagraph end ->
  ordinary t -> starts_nothing k i (line_of x t).
Proof.
  intros C I (_ & Q & O). split.
  - intros ck cf CL [u B]. rewrite line_content in B. destruct (child_class _ _ _ _ _ _ _ C I CL) as (cp & cs & CC).
    apply child_first in CL. now apply (O ck cf cf u (class_start _ _ _ _ CC)).
  - intros _ c OC [u B]. rewrite line_content in B. specialize (Q c). rewrite B in Q. destruct (Q (or_introl eq_refl)) as (Q1 & Q2 & Q3).
    destruct OC; contradiction.
Qed.
Lemma ordinary_header p subs k first i x y t : class p subs k first -> ordinary t -> match i with Some i => item_id k first i | None => k = KParagraph end ->
  header_of k first i (line_of x (header_text k i ++ t)) (line_of y t).
Proof.
  intros C (_ & _ & O) I. split; [apply line_typed|]. split; [apply line_typed|]. destruct i as [i|]; cbn [header_text app]; rewrite !line_content; [auto|].
  split; [exact I|]. split; [reflexivity|]. intros j J [u B]. rewrite line_content in B. now apply (O k first j u (class_start _ _ _ _ C)).
Qed.
Lemma one_text x t : t <> [] -> text_in [line_of x t] t.
Proof.
  intros NE. exists [line_of x t]. split.
  - apply picks_keep; [|constructor]. intros B. apply blank_content in B. rewrite line_content in B. contradiction.
  - cbn [map]. rewrite line_content. change [t] with ([] ++ [t]). eapply joined_first; [constructor|reflexivity].
Qed.

Lemma head_rendered p subs k first i t : class p subs k first -> match i with Some i => item_id k first i | None => k = KParagraph end -> ordinary t ->
  rendered (margin_of k) (line_of (margin_of k) (header_text k i ++ t)).
Proof.
  intros C I (NE & Q & _). exists (margin_of k), (header_text k i ++ t). split; [reflexivity|].
  split; [intros E; apply app_eq_nil in E; tauto|]. split; [|split; [destruct C; cbn; tauto|lia]]. apply quoteless_app; [|exact Q].
  destruct i as [i|]; [eapply header_quoteless; eauto|intros c []].
Qed.

Definition wrap_line (k : sae_kind) (w : option pystr) : list line := match w with Some t => [line_of (margin_of k - 10) t] | None => [] end.
Definition may_wrap (k : sae_kind) (w : option pystr) : Prop :=
  match w with Some t => ordinary t /\ k <> KNumericSubpoint /\ k <> KParagraph | None => True end.

Lemma render_layout :
  (forall k first s, clean k first s -> forall p subs, class p subs k first ->
     layout true k first (render s) s /\
     exists t rest, render s = line_of (margin_of k) (header_text k (s_identifier s) ++ t) :: rest /\ ordinary t /\ Forall (rendered (margin_of k + 10)) rest) /\
  (forall k first i es, cleans k first i es -> forall p subs w, class p subs k first -> may_wrap k w ->
     layouts true k first i (flat_map render es ++ wrap_line k w) es w /\ Forall (rendered (margin_of k)) (flat_map render es)).
Proof.
  apply clean_mutind.
  - (* text *)
    intros k first i t O I p subs C. pose proof O as (NE & Q & _). split.
    + cbn [render app]. pose proof (ordinary_header _ _ k first i (margin_of k) 20 t C O I) as H.
      eapply layout_text; [exact H|constructor|now apply one_text| |].
      * eapply rendered_balanced. constructor; [eapply head_rendered; eauto|constructor].
      * apply outside_all. constructor; [eapply ordinary_starts; eassumption|constructor].
    + exists t, []. cbn. auto.
  - (* parts *)
    intros k first i t ck cf es w O I CL CS IH LEN W p subs C. pose proof O as (NE & Q & _).
    destruct (child_class _ _ _ _ _ _ _ C I CL) as (cp & csubs & CC). pose proof (child_margin _ _ _ _ CL) as (MC & M1 & M2 & M3).
    assert (MW : may_wrap ck w).
    { unfold may_wrap. destruct w as [w|]; [|exact Logic.I]. destruct W as [W1 W2]. split; [exact W1|]. split; [exact W2|]. destruct CL; discriminate. }
    destruct (IH cp csubs w CC MW) as [LS RS].
    assert (R : render (mk_sae k i None (Some t) (Some (map ChSae es)) w NO_META) =
                line_of (margin_of k) (header_text k i ++ t) :: flat_map render es ++ wrap_line ck w).
    { cbn [render app]. f_equal. f_equal; [now rewrite flat_map_concat_map, map_map, <- flat_map_concat_map|].
      unfold wrap_line. replace (margin_of ck - 10) with (margin_of k + 10) by lia. reflexivity. }
    assert (RW : Forall (rendered (margin_of k + 10)) (flat_map render es ++ wrap_line ck w)).
    { apply Forall_app. split; [eapply Forall_impl; [|exact RS]; intros l; apply rendered_less; lia|].
      unfold wrap_line. destruct w as [w|]; [|constructor]. destruct W as [(W1 & W2 & _) _]. constructor; [|constructor].
      exists (margin_of ck - 10), w. repeat split; auto; try lia; try (apply W2; assumption). replace (margin_of ck - 10) with (margin_of k + 10) by lia. exact M2. }
    split.
    + rewrite R. destruct (layouts_start _ _ _ _ _ _ _ LS) as (more & rest & E & _). rewrite E in *.
      pose proof (ordinary_header _ _ k first i (margin_of k) 20 t C O I) as H.
      change (more :: rest) with ([] ++ more :: rest).
      eapply layout_parts; [exact H| |now apply one_text| | |exact CL| |exact LS|exact LEN].
      * cbn [app]. eapply Forall_impl; [|exact RW]. intros l (x & s & -> & _). apply line_typed.
      * eapply rendered_balanced. constructor; [eapply head_rendered; eauto|constructor].
      * apply outside_all. constructor; [eapply ordinary_starts; eassumption|constructor].
      * eapply rendered_balanced, RW.
    + exists t, (flat_map render es ++ wrap_line ck w). auto.
  - (* the last one *)
    intros k first i e I CE IH SI p subs w C MW. destruct (IH p subs C) as [LE (t & rest & R & O & F)]. rewrite SI in R. cbn [header_text] in R.
    cbn [flat_map]. rewrite app_nil_r.
    pose proof (head_rendered _ _ _ _ (Some i) t C I O) as HR. cbn [header_text] in HR.
    set (l0 := line_of (margin_of k) (header k i ++ t)) in *.
    assert (MK : In (margin_of k) margins) by (destruct C; cbn; tauto).
    assert (X0 : exists c u, l0 = line_of (margin_of k) (c :: u)).
    { unfold l0. destruct HR as (x & s & _). destruct (header k i ++ t) as [|c u] eqn:E; [|eauto]. apply app_eq_nil in E as [_ E]. destruct O; contradiction. }
    destruct X0 as (c0 & u0 & X0).
    assert (FR : Forall (rendered (margin_of k)) (render e)).
    { rewrite R. constructor; [exact HR|]. eapply Forall_impl; [|exact F]. intros l. apply rendered_less. lia. }
    split; [|exact FR].
    assert (W : Forall (rendered 0) (wrap_line k w)).
    { unfold wrap_line. destruct w as [w|]; [|constructor]. destruct MW as ((W1 & W2 & _) & W3 & W4). constructor; [|constructor].
      exists (margin_of k - 10), w. repeat split; auto; try (apply W2; assumption); destruct C; cbn; tauto || lia. }
    rewrite R. cbn [app]. eapply layouts_last with (kept := render e); [exact I|exists t; unfold l0; now rewrite line_content| | |exact LE|exact SI].
    + apply outside_all. apply Forall_app. split.
      * eapply Forall_impl; [|exact F]. intros l (x & s & -> & NE & _ & X & L) j _ _. left. rewrite X0, line_indent. destruct s as [|c s]; [contradiction|].
        apply deeper_rendered; auto.
      * unfold wrap_line. destruct w as [w|]; [|constructor]. constructor; [|constructor]. eapply ordinary_quiet; [exact C|apply MW].
    + destruct (sae_kind_eqb k KParagraph || sae_kind_eqb k KNumericSubpoint) eqn:K.
      * assert (K' : k = KParagraph \/ k = KNumericSubpoint) by (destruct k; auto; discriminate).
        assert (w = None) as -> by (destruct w; [destruct MW as (_ & ? & ?); tauto|reflexivity]). cbn [wrap_line]. rewrite app_nil_r, <- R. now constructor.
      * assert (K1 : k <> KParagraph) by (intros ->; discriminate). assert (K2 : k <> KNumericSubpoint) by (intros ->; discriminate).
        assert (FI : Forall (fun x => f_ltb (l_indent x) (f_add (l_indent l0) (f_of_Z 1)) = false) rest).
        { eapply Forall_impl; [|exact F]. intros l (x & s & -> & NE & _ & X & L). rewrite X0, line_indent. destruct s as [|c s]; [contradiction|].
          rewrite line_indent, indent_rendered by assumption. lia. }
        pose proof (rendered_nonblank _ _ FR) as NB. rewrite R in NB. rewrite R.
        destruct w as [w|]; cbn [wrap_line].
        -- destruct MW as (W1 & W2 & W3). apply (item_and_text _ _ _ _ _ (line_of (margin_of k - 10) w) []); auto.
           ++ cbn [app]. change (without_blanks ((l0 :: rest) ++ [line_of (margin_of k - 10) w]) ((l0 :: rest) ++ [line_of (margin_of k - 10) w])).
              eapply (rendered_nonblank 0). apply Forall_app. split; [|exact W]. rewrite <- R. eapply Forall_impl; [|exact FR]. intros l. apply rendered_less.
              destruct C; cbn; lia.
           ++ cbn [map]. rewrite line_content. change [w] with ([] ++ [w]). eapply joined_first; [constructor|reflexivity].
           ++ split; [exact FI|]. destruct w as [|c w]; [destruct W1; contradiction|]. rewrite line_indent, X0, line_indent, indent_rendered; auto.
              ** lia.
              ** destruct C; cbn; tauto.
        -- rewrite app_nil_r. now apply item_to_end.
  - (* more *)
    intros k first i j e es I CE IH SI NX CS IHS p subs w C MW. destruct (IH p subs C) as [LE (t & rest & R & O & F)]. rewrite SI in R. cbn [header_text] in R.
    destruct (IHS p subs w C MW) as [LS RS]. cbn [flat_map]. rewrite <- app_assoc.
    pose proof (head_rendered _ _ _ _ (Some i) t C I O) as HR. cbn [header_text] in HR.
    set (l0 := line_of (margin_of k) (header k i ++ t)) in *.
    assert (MK : In (margin_of k) margins) by (destruct C; cbn; tauto).
    assert (X0 : exists c u, l0 = line_of (margin_of k) (c :: u)).
    { unfold l0. destruct (header k i ++ t) as [|c u] eqn:E; [|eauto]. apply app_eq_nil in E as [_ E]. destruct O; contradiction. }
    destruct X0 as (c0 & u0 & X0).
    assert (FR : Forall (rendered (margin_of k)) (render e)).
    { rewrite R. constructor; [exact HR|]. eapply Forall_impl; [|exact F]. intros l. apply rendered_less. lia. }
    split; [|apply Forall_app; now split].
    assert (ST : exists l' rest', flat_map render es ++ wrap_line k w = l' :: rest' /\ l_indent l' = f_of_Z (margin_of k)).
    { destruct CS as [k first j e' I' CE' SI'|k first j j' e' es' I' CE' SI' NX' CS']; cbn [flat_map]; inversion CE'; subst; cbn [render app]; eexists _, _; (split; [reflexivity|]);
        destruct H as (NE & _); (destruct (header_text _ _ ++ t0) as [|c u] eqn:E; [apply app_eq_nil in E; tauto|reflexivity]). }
    destruct ST as (l' & rest' & E & EI). rewrite E in *. rewrite R in *. cbn [app].
    eapply layouts_more; [exact I|exists t; unfold l0; now rewrite line_content| |exact LE|exact SI|exact NX| |exact LS].
    + apply outside_all. eapply Forall_impl; [|exact F]. intros l (x & s & -> & NE & _ & X & L) j0 _ _. left. rewrite X0, line_indent. destruct s as [|c s]; [contradiction|].
      now apply deeper_rendered.
    + intros [D _]. rewrite EI, X0, line_indent in D. clear - D MK. revert D MK. generalize (margin_of k). intros x D MK. margin_cases; vm_compute in D; discriminate.
Qed.

Lemma render_parsed s pi : clean KParagraph (u8 "1") s -> pi = true -> parse_paragraph (render s) pi = Ok s.
Proof.
  intros C ->. destruct (proj1 render_layout _ _ _ C _ _ class_paragraph) as [L _].
  exact (proj1 (proj1 (layout_parsed true) _ _ _ _ L _ _ class_paragraph)).
Qed.
Lemma render_article_layout i title ps : article_number i -> ~ In 10%N title -> clean_paragraphs ps ->
  article_layout true (render_article i title ps) (mk_article i (Some title) ps).
Proof.
  intros N NL CP. unfold render_article.
  set (l0 := line_of 20 (i ++ u8 ". § [" ++ title ++ u8 "]")).
  assert (E : l_content l0 = i ++ u8 "." ++ u8 " " ++ u8 "§ " ++ u8 "[" ++ title ++ u8 "]") by (unfold l0; now rewrite line_content).
  set (n := List.length (i ++ u8 "." ++ u8 " " ++ u8 "§ ")).
  assert (T0 : typed l0) by apply line_typed.
  destruct (slice_header_ok l0 n T0) as [l1 S]; [rewrite E; unfold n; rewrite !app_length; lia|].
  pose proof (slice_drop _ _ _ (char_parts_single _ T0) S) as C1.
  assert (C : l_content l1 = 91%N :: title ++ [93%N]).
  { rewrite C1, E. unfold n.
    replace (i ++ u8 "." ++ u8 " " ++ u8 "§ " ++ u8 "[" ++ title ++ u8 "]") with ((i ++ u8 "." ++ u8 " " ++ u8 "§ ") ++ u8 "[" ++ title ++ u8 "]")
      by (now rewrite <- !app_assoc).
    rewrite skipn_app, skipn_all, Nat.sub_diag. reflexivity. }
  apply (layout_article true i [32%N] l0 l1 (u8 "[" ++ title ++ u8 "]") _ _ (flat_map render ps) [] (flat_map render ps)); auto.
  - intros H. apply in_app_or in H as [H|H]; [cbn in H; intuition discriminate|]. apply in_app_or in H as [H|H]; [contradiction|cbn in H; intuition discriminate].
  - now constructor.
  - destruct CP as [p CP NI|ps CP].
    + destruct (proj1 render_layout _ _ _ CP _ _ class_paragraph) as [L (t & rest & R & O & _)]. cbn [flat_map]. rewrite app_nil_r, R in *.
      apply layout_one; auto. intros B. apply blank_content in B. rewrite line_content in B. apply app_eq_nil in B as [_ B]. destruct O; contradiction.
    + destruct (proj2 render_layout _ _ _ _ CP _ _ None class_paragraph Logic.I) as [L R]. cbn [wrap_line] in L. rewrite app_nil_r in L.
      apply layout_numbered; [eapply rendered_balanced, R|exact L].
Qed.

(* texts that are ordinary, by their first characters *)
Fixpoint after_letters (t : pystr) : pystr :=
  match t with c :: r => if (97 <=? c)%N && (c <=? 122)%N then after_letters r else t | [] => [] end.
Definition looks_ordinary (t : pystr) : bool :=
  match t with
  | [] => false
  | c :: _ =>
      negb ((48 <=? c)%N && (c <=? 57)%N) && negb (c =? 40)%N &&
      match after_letters t with d :: _ => negb (d =? 41)%N | [] => true end &&
      forallb (fun c => negb ((8220 <=? c)%N && (c <=? 8222)%N)) t
  end.
Lemma after_letters_app a r : Forall small_letter a -> after_letters (a ++ r) = after_letters r.
Proof. unfold small_letter. induction 1 as [|c a H F IH]; [reflexivity|]. cbn [app after_letters]. now replace ((97 <=? c)%N && (c <=? 122)%N) with true by lia. Qed.
Lemma looks_ordinary_ok t : looks_ordinary t = true -> ordinary t.
Proof.
  destruct t as [|c t]; [discriminate|]. unfold looks_ordinary. rewrite !andb_true_iff. intros [[[D P] L] Q].
  split; [discriminate|]. split.
  - intros d H. rewrite forallb_forall in Q. specialize (Q d H). cbn in Q. lia.
  - intros k first i u S I E.
    assert (DG : forall n l r, numbered i n l -> c :: t = i ++ r -> False).
    { intros n l r H EQ. destruct H as [d A N|d x A N X|d x A N X]; destruct d as [|y d]; try contradiction; injection EQ as -> _;
        apply Forall_inv in A; cbn in A; lia. }
    assert (LT : forall r, Forall small_letter i -> c :: t = i ++ u8 ") " ++ r -> False).
    { intros r A EQ. rewrite EQ, after_letters_app in L by exact A. cbn in L. discriminate. }
    assert (LK : k = KAlphabeticPoint \/ k = KAlphabeticSubpoint -> header k i = i ++ u8 ") ") by (intros [-> | ->]; reflexivity).
    destruct I as [first i n l N _|k first i n l K N|k q x K X|k first i K N].
    + cbn [header] in E. injection E as -> _. discriminate.
    + eapply (DG n l (u8 ". " ++ u) N). rewrite E. destruct K as [-> | ->]; cbn [header]; now rewrite <- app_assoc.
    + eapply (LT u).
      * apply Forall_app. split; [|constructor; [exact X|constructor]]. destruct S as [S|(q' & A & S)]; [exfalso|].
        -- change (u8 "1") with ([] ++ [49%N]) in S. apply app_inj_tail in S as [_ S]. discriminate.
        -- apply app_inj_tail in S as [-> _]. exact A.
      * rewrite E, LK by exact K. now rewrite <- app_assoc.
    + eapply (LT u); [|rewrite E, LK by exact K; now rewrite <- app_assoc]. destruct N as [-> | ->]; repeat constructor; unfold small_letter; lia.
Qed.
