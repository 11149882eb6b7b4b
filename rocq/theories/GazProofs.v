(* Proofs for C45. *)
From Coq Require Import Lia.
From Verif Require Import PyBase PyBaseFacts IdModel LineModel DateModel GazModel GazSpec.
Local Open Scope Z_scope.

Lemma title_ok s : is_section_title s = true <-> In s titles.
Proof.
  unfold is_section_title. rewrite existsb_exists. split.
  - intros (e & H & E). apply str_eqb_eq in E. subst s. change titles with (map fst SECTION_TYPES). apply in_map. exact H.
  - intros H. change titles with (map fst SECTION_TYPES) in H. apply in_map_iff in H as (e & <- & H). exists e. split; [exact H|]. apply str_eqb_refl.
Qed.
Lemma wanted_ok t : section_wanted t = str_eqb t laws_title.
Proof.
  unfold section_wanted, SECTION_TYPES. cbn [existsb fst snd]. rewrite !Bool.andb_false_r, Bool.andb_true_r, Bool.orb_false_r. reflexivity.
Qed.
Lemma yield_ok d r : yield_section d (rn_title r) (run_content r) = laws_of_runs d [r].
Proof. unfold yield_section, laws_of_runs. rewrite wanted_ok. cbn [filter]. destruct (str_eqb (rn_title r) laws_title); reflexivity. Qed.
Lemma laws_app d a b : laws_of_runs d (a ++ b) = laws_of_runs d a ++ laws_of_runs d b.
Proof. unfold laws_of_runs. rewrite filter_app, map_app. reflexivity. Qed.
Lemma untitled_not t p : In t titles -> untitled p -> ~ titled t p.
Proof. intros T (l & r & -> & N) (l' & r' & E & C). injection E as <- <-. subst t. exact (N T). Qed.

Lemma loop_ok d pages : forall t c done, In t titles -> done <> [] ->
  (exists p ps, done = p :: ps /\ titled t p /\ Forall (fun p => titled t p \/ untitled p) ps) ->
  c = run_content (mk_run t done) ->
  exists more rs, filter nonempty (map hp_lines pages) = more ++ flat_map rn_pages rs /\ Forall good_run (mk_run t (done ++ more) :: rs) /\
    changing (mk_run t (done ++ more) :: rs) /\
    section_loop d pages (Some (t, c)) = mk_gen (laws_of_runs d (mk_run t (done ++ more) :: rs)) None.
Proof.
  induction pages as [|p pages IH]; intros t c done T D (p0 & ps & E0 & T0 & F0) ->.
  - exists [], []. rewrite !app_nil_r. split; [reflexivity|]. split.
    + constructor; [|constructor]. split; [exact T|]. exists p0, ps. auto.
    + split; [exact I|]. cbn [section_loop]. rewrite <- yield_ok. reflexivity.
  - cbn [section_loop map filter]. destruct (hp_lines p) as [|f others] eqn:P; [apply IH; eauto|]. cbn [nonempty].
    destruct (is_section_title (l_content f)) eqn:S.
    + apply title_ok in S. destruct (str_eqb t (l_content f)) eqn:Q.
      * apply str_eqb_eq in Q. destruct (IH t (run_content (mk_run t done) ++ others ++ [EMPTY_LINE]) (done ++ [f :: others]) T) as (more & rs & A & B & X & L).
        -- destruct done; discriminate.
        -- exists p0, (ps ++ [f :: others]). subst done. split; [reflexivity|]. split; [exact T0|]. apply Forall_app. split; [exact F0|].
           constructor; [|constructor]. left. exists f, others. auto.
        -- unfold run_content. cbn [rn_pages rn_title]. rewrite flat_map_app. cbn [flat_map page_content]. rewrite <- Q, str_eqb_refl, !app_nil_r. reflexivity.
        -- exists ((f :: others) :: more), rs. rewrite <- app_assoc in B, X, L. cbn [app] in B, X, L. cbn [app]. rewrite A. auto.
      * destruct (IH (l_content f) (others ++ [EMPTY_LINE]) [f :: others] S) as (more & rs & A & B & X & L).
        -- discriminate.
        -- exists (f :: others), []. split; [reflexivity|]. split; [exists f, others; auto|constructor].
        -- unfold run_content. cbn [rn_pages rn_title flat_map page_content]. rewrite str_eqb_refl, app_nil_r. reflexivity.
        -- exists [], (mk_run (l_content f) ([f :: others] ++ more) :: rs). split.
           ++ cbn [app flat_map rn_pages]. rewrite A. reflexivity.
           ++ rewrite app_nil_r. split; [|split].
              ** constructor; [|exact B]. split; [exact T|]. exists p0, ps. auto.
              ** split; [|exact X]. cbn [rn_title]. intros N. subst t. rewrite str_eqb_refl in Q. discriminate.
              ** rewrite L. cbn [g_items g_end]. change (mk_run t done :: ?x) with ([mk_run t done] ++ x). rewrite laws_app, <- yield_ok. reflexivity.
    + assert (N : ~ In (l_content f) titles) by (intros N; apply title_ok in N; congruence).
      destruct (IH t (run_content (mk_run t done) ++ (f :: others) ++ [EMPTY_LINE]) (done ++ [f :: others]) T) as (more & rs & A & B & X & L).
      * destruct done; discriminate.
      * exists p0, (ps ++ [f :: others]). subst done. split; [reflexivity|]. split; [exact T0|]. apply Forall_app. split; [exact F0|].
        constructor; [|constructor]. right. exists f, others. auto.
      * unfold run_content. cbn [rn_pages rn_title]. rewrite flat_map_app. cbn [flat_map page_content].
        destruct (str_eqb (l_content f) t) eqn:Q; [apply str_eqb_eq in Q; subst t; contradiction|]. rewrite !app_nil_r. reflexivity.
      * exists ((f :: others) :: more), rs. rewrite <- app_assoc in B, X, L. cbn [app] in B, X, L. cbn [app]. rewrite A. auto.
Qed.
Theorem sections_ok k :
  (exists rs, flat_map rn_pages rs = written_pages k /\ rs <> [] /\ Forall good_run rs /\ changing rs /\
     section_extractor k = mk_gen (laws_of_runs (is_date k) rs) None) \/
  (written_pages k = [] /\ section_extractor k = mk_gen [] (Some AssertionError)) \/
  (exists p r, written_pages k = p :: r /\ untitled p /\ section_extractor k = mk_gen [] (Some ValueError)).
Proof.
  unfold written_pages, section_extractor. destruct k as [d pages]. cbn [is_date is_pages]. induction pages as [|p pages IH].
  - right. left. split; reflexivity.
  - cbn [section_loop map filter]. destruct (hp_lines p) as [|f others] eqn:P; [exact IH|]. cbn [nonempty].
    destruct (is_section_title (l_content f)) eqn:S.
    + left. apply title_ok in S. destruct (loop_ok d pages (l_content f) (others ++ [EMPTY_LINE]) [f :: others] S) as (more & rs & A & B & X & L).
      * discriminate.
      * exists (f :: others), []. split; [reflexivity|]. split; [exists f, others; auto|constructor].
      * unfold run_content. cbn [rn_pages rn_title flat_map page_content]. rewrite str_eqb_refl, app_nil_r. reflexivity.
      * exists (mk_run (l_content f) ([f :: others] ++ more) :: rs). split; [|split; [discriminate|split; [exact B|split; [exact X|exact L]]]]. cbn [flat_map rn_pages app]. rewrite A. reflexivity.
    + right. right. exists (f :: others), (filter nonempty (map hp_lines pages)). split; [reflexivity|]. split; [|reflexivity].
      exists f, others. split; [reflexivity|]. intros N. apply title_ok in N. congruence.
Qed.

(* runs are determined by the pages *)
Lemma run_prefix t ps qs rs ss : In t titles ->
  Forall (fun p => titled t p \/ untitled p) ps -> Forall (fun p => titled t p \/ untitled p) qs ->
  (forall r x, rs = r :: x -> good_run r /\ t <> rn_title r) -> (forall r x, ss = r :: x -> good_run r /\ t <> rn_title r) ->
  ps ++ flat_map rn_pages rs = qs ++ flat_map rn_pages ss -> ps = qs /\ flat_map rn_pages rs = flat_map rn_pages ss.
Proof.
  intros T FP FQ. revert qs FQ.
  assert (B : forall p rest rs, (forall r x, rs = r :: x -> good_run r /\ t <> rn_title r) -> titled t p \/ untitled p -> flat_map rn_pages rs = p :: rest -> False).
  { intros p rest [|r rs'] R P E; [discriminate|]. destruct (R r rs' eq_refl) as [(I & p' & ps' & E' & T' & _) N]. cbn [flat_map] in E. rewrite E' in E. injection E as -> _.
    destruct P as [P|P]; [|exact (untitled_not _ _ I P T')]. destruct P as (l & x & -> & C), T' as (l' & x' & E2 & C'). injection E2 as <- <-. congruence. }
  induction FP as [|p ps P FP IH]; intros qs FQ R1 R2 E.
  - destruct qs as [|q qs]; [split; [reflexivity|exact E]|]. inversion FQ; subst. exfalso. exact (B _ _ _ R1 H1 E).
  - destruct qs as [|q qs]; [exfalso; exact (B _ _ _ R2 P (eq_sym E))|]. injection E as -> E. inversion FQ; subst.
    destruct (IH qs H2 R1 R2 E) as [-> ->]. auto.
Qed.
Theorem runs_unique rs : forall ss, Forall good_run rs -> Forall good_run ss -> changing rs -> changing ss ->
  flat_map rn_pages rs = flat_map rn_pages ss -> rs = ss.
Proof.
  induction rs as [|r rs IH]; intros ss GR GS CR CS E.
  - destruct ss as [|s ss]; [reflexivity|]. inversion GS; subst. destruct H1 as (_ & p & ps & X & _). cbn [flat_map] in E. rewrite X in E. discriminate.
  - destruct ss as [|s ss]; [inversion GR; subst; destruct H1 as (_ & p & ps & X & _); cbn [flat_map] in E; rewrite X in E; discriminate|].
    inversion GR as [|? ? G1 G2]; subst. inversion GS as [|? ? G3 G4]; subst. destruct r as [t ps], s as [u qs].
    pose proof G1 as (I1 & p1 & ps1 & E1 & T1 & F1). pose proof G3 as (I2 & p2 & ps2 & E2 & T2 & F2). cbn [rn_pages rn_title] in *. subst ps qs.
    cbn [flat_map rn_pages app] in E. injection E as -> E.
    assert (t = u) by (destruct T1 as (l & x & -> & C), T2 as (l' & x' & E2 & C'); injection E2 as <- <-; congruence). subst u.
    assert (N : forall rs ps, changing (mk_run t ps :: rs) -> Forall good_run rs -> forall r x, rs = r :: x -> good_run r /\ t <> rn_title r).
    { intros l ps C G r x ->. inversion G; subst. destruct C as [C _]. auto. }
    destruct (run_prefix t ps1 ps2 rs ss I1 F1 F2 (N _ _ CR G2) (N _ _ CS G4) E) as [-> E'].
    assert (Tl : forall r rs, changing (r :: rs) -> changing rs) by (intros a [|b l]; [intros; exact I|intros [_ X]; exact X]).
    f_equal. apply IH; eauto.
Qed.

Lemma in_order_app {A} (a b c d : list A) : in_order a b -> in_order c d -> in_order (a ++ c) (b ++ d).
Proof. induction 1; intros H'; cbn [app]; [exact H'|constructor; auto..]. Qed.
Lemma in_order_nil {A} (l : list A) : in_order [] l.
Proof. induction l; constructor; assumption. Qed.
Lemma in_order_filter {A} (f : A -> bool) (l : list A) : in_order (filter f l) l.
Proof. induction l as [|x l IH]; cbn [filter]; [constructor|]. destruct (f x); constructor; exact IH. Qed.
Lemma page_in_order t p : in_order (filter (fun l => negb (is_empty_line l)) (page_content t p)) p.
Proof.
  destruct p as [|l r]; cbn [page_content]; [constructor|]. rewrite filter_app. cbn [filter is_empty_line EMPTY_LINE l_parts negb]. rewrite app_nil_r.
  destruct (str_eqb (l_content l) t); [apply io_drop|]; apply in_order_filter.
Qed.
Theorem lines_ok k : in_order (filter (fun l => negb (is_empty_line l)) (flat_map ls_lines (g_items (section_extractor k)))) (concat (written_pages k)).
Proof.
  destruct (sections_ok k) as [(rs & <- & _ & _ & _ & ->)|[[-> ->]|(p & r & -> & _ & ->)]]; cbn [g_items flat_map filter]; try apply in_order_nil.
  unfold laws_of_runs. induction rs as [|r rs IH]; [constructor|]. cbn [filter flat_map]. rewrite concat_app. destruct (str_eqb (rn_title r) laws_title).
  - cbn [map flat_map ls_lines]. rewrite filter_app. apply in_order_app; [|exact IH]. unfold run_content. induction (rn_pages r) as [|p ps IHp]; [constructor|].
    cbn [flat_map concat]. rewrite filter_app. apply in_order_app; [apply page_in_order|exact IHp].
  - rewrite <- (app_nil_l (filter _ _)). apply in_order_app; [apply in_order_nil|exact IH].
Qed.
