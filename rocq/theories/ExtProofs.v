(* Proofs for C43. *)
From Coq Require Import Lia Permutation.
From Coq Require Import ZifyBool ZifyNat ZifyN.
From Verif Require Import PyBase LineModel ExtModel ExtSpec.
Local Open Scope Z_scope.

Lemma perm_concat {A} (a b : list (list A)) : Permutation a b -> Permutation (concat a) (concat b).
Proof.
  induction 1; cbn [concat]; [constructor|apply Permutation_app_head; assumption| |eapply Permutation_trans; eassumption].
  rewrite !app_assoc. apply Permutation_app_tail. apply Permutation_app_comm.
Qed.
Lemma perm_Forall2 {A B} (R : A -> B -> Prop) a b : Permutation a b -> forall la, Forall2 R a la -> exists lb, Forall2 R b lb /\ Permutation la lb.
Proof.
  induction 1; intros la F.
  - inversion F; subst. exists []. split; constructor.
  - inversion F as [|? y ? ly Rx Fl]; subst. destruct (IHPermutation _ Fl) as (lb & F' & P). exists (y :: lb). split; [constructor; assumption|constructor; exact P].
  - inversion F as [|? p ? lp Rp Fp]; subst. inversion Fp as [|? q ? lq Rq Fq]; subst. exists (q :: p :: lq). split; [repeat constructor; assumption|constructor].
  - destruct (IHPermutation1 _ F) as (lb & F1 & P1). destruct (IHPermutation2 _ F1) as (lc & F2 & P2). exists lc. split; [exact F2|eapply Permutation_trans; eassumption].
Qed.
Lemma Forall2_map_all {A B} (f : A -> option B) l r : all_some (map f l) = Some r <-> Forall2 (fun x y => f x = Some y) l r.
Proof.
  revert r. induction l as [|x l IH]; intros r; cbn [map all_some].
  - split; [intros H; injection H as <-; constructor|intros H; inversion H; reflexivity].
  - destruct (f x) as [y|] eqn:E.
    + destruct (all_some (map f l)) as [r'|].
      * split; [intros H; injection H as <-; constructor; [exact E|apply IH; reflexivity]|]. intros H. inversion H as [|? y' ? r2 E' F]; subst. apply IH in F. congruence.
      * split; [discriminate|]. intros H. inversion H as [|? y' ? r2 E' F]; subst. apply IH in F. discriminate.
    + split; [discriminate|]. intros H. inversion H. congruence.
Qed.

Section extraction.
Context {Obj C : Type} (w : world Obj C) (classes : list C).
Notation work := (work w classes).
Notation results := (results w classes).
Notation results_of := (results_of w classes).
Notation fails := (fails w classes).
Notation finite := (finite w classes).
Notation all_finite := (all_finite w classes).

Lemma work_mono fuel : forall stack g k, work fuel stack = Some g -> work (fuel + k) stack = Some g.
Proof.
  induction fuel as [|n IH]; intros stack g k H; [discriminate|]. cbn [Nat.add ExtModel.work] in *. destruct stack as [|o rest]; [exact H|].
  destruct (is_result w classes o).
  - destruct (work n rest) as [g'|] eqn:E; [|discriminate]. rewrite (IH _ _ k E). exact H.
  - destruct (extract_from w o); [apply IH; exact H|exact H].
Qed.
Lemma work_det f f' stack g g' : work f stack = Some g -> work f' stack = Some g' -> g = g'.
Proof. intros H H'. apply (work_mono f _ _ f') in H. apply (work_mono f' _ _ f) in H'. rewrite Nat.add_comm in H'. congruence. Qed.

Lemma results_of_nil l : results_of [] l -> l = [].
Proof.
  intros H. remember (@nil Obj) as os eqn:E. destruct H as [|os o l l' R Rs]; [reflexivity|]. apply app_eq_nil in E as [_ E]. discriminate.
Qed.
Lemma results_of_snoc os o l : results_of (os ++ [o]) l -> exists l1 l2, l = l1 ++ l2 /\ results o l1 /\ results_of os l2.
Proof.
  intros H. remember (os ++ [o]) as x eqn:E. destruct H as [|os' o' l1 l2 R Rs]; [symmetry in E; apply app_eq_nil in E as [_ E]; discriminate|].
  apply app_inj_tail in E as [-> ->]. exists l1, l2. auto.
Qed.
Lemma results_split a b : forall l, results_of (a ++ b) l -> exists la lb, l = lb ++ la /\ results_of b lb /\ results_of a la.
Proof.
  induction b as [|x b IH] using rev_ind; intros l H.
  - rewrite app_nil_r in H. exists l, []. split; [reflexivity|]. split; [constructor|exact H].
  - rewrite app_assoc in H. apply results_of_snoc in H as (l1 & l2 & -> & R & Rs). destruct (IH _ Rs) as (la & lb & -> & K1 & K2). exists la, (l1 ++ lb). split; [rewrite app_assoc; reflexivity|].
    split; [constructor; assumption|exact K2].
Qed.
Lemma results_join b lb : results_of b lb -> forall a la, results_of a la -> results_of (a ++ b) (lb ++ la).
Proof.
  revert lb. induction b as [|x b IH] using rev_ind; intros lb H a la A.
  - apply results_of_nil in H. subst lb. rewrite app_nil_r. exact A.
  - apply results_of_snoc in H as (l1 & l2 & -> & R & Rs). rewrite app_assoc, <- (app_assoc l1). constructor; [exact R|]. apply IH; assumption.
Qed.
Lemma results_single o l : results_of [o] l <-> results o l.
Proof.
  split.
  - intros H. change [o] with ([] ++ [o]) in H. apply results_of_snoc in H as (l1 & l2 & -> & R & Rs). apply results_of_nil in Rs. subst l2. rewrite app_nil_r. exact R.
  - intros R. rewrite <- (app_nil_r l). change [o] with ([] ++ [o]). constructor; [exact R|constructor].
Qed.
Lemma work_results fuel : forall stack l, work fuel stack = Some (mk_gen l None) -> results_of (rev stack) l.
Proof.
  induction fuel as [|n IH]; intros stack l H; [discriminate|]. cbn [ExtModel.work] in H. destruct stack as [|o rest]; [injection H as <-; constructor|]. cbn [rev].
  destruct (is_result w classes o) eqn:E.
  - destruct (work n rest) as [[items e]|] eqn:W; [|discriminate]. cbn [g_items g_end] in H. injection H as <- ->. change (o :: items) with ([o] ++ items).
    constructor; [constructor; exact E|apply IH; exact W].
  - destruct (extract_from w o) as [os|] eqn:X; [|discriminate]. apply IH in H. rewrite rev_app_distr, rev_involutive in H.
    apply results_split in H as (la & lb & -> & H1 & H2). constructor; [econstructor; eassumption|exact H2].
Qed.
Lemma results_work :
  (forall o l, results o l -> forall rest f g, work f rest = Some g -> exists f', work f' (o :: rest) = Some (mk_gen (l ++ g_items g) (g_end g))) /\
  (forall os l, results_of os l -> forall rest f g, work f rest = Some g -> exists f', work f' (rev os ++ rest) = Some (mk_gen (l ++ g_items g) (g_end g))).
Proof.
  apply results_mutind.
  - intros o E rest f g H. exists (S f). cbn [ExtModel.work]. rewrite E, H. reflexivity.
  - intros o os l E X _ IH rest f g H. destruct (IH rest f g H) as (f' & W). exists (S f'). cbn [ExtModel.work]. rewrite E, X. exact W.
  - intros rest f g H. exists f. cbn [rev app]. rewrite H. destruct g; reflexivity.
  - intros os o l l' _ IH1 _ IH2 rest f g H. destruct (IH2 rest f g H) as (f1 & W1). destruct (IH1 _ _ _ W1) as (f2 & W2). exists f2.
    rewrite rev_app_distr. cbn [rev app g_items g_end] in *. rewrite <- app_assoc. exact W2.
Qed.
Theorem do_work_results objects l : (exists f, do_work w classes f objects = Some (mk_gen l None)) <-> results_of objects l.
Proof.
  split.
  - intros (f & H). apply work_results in H. rewrite rev_involutive in H. exact H.
  - intros H. destruct results_work as [_ R]. destruct (R _ _ H [] 1%nat (mk_gen [] None) eq_refl) as (f & W). exists f. unfold do_work.
    cbn [g_items g_end] in W. rewrite !app_nil_r in W. exact W.
Qed.
Lemma results_of_Forall2 os l : results_of os l <-> exists ls, Forall2 results os ls /\ l = concat (rev ls).
Proof.
  split.
  - revert l. induction os as [|x os IH] using rev_ind; intros l H.
    + apply results_of_nil in H. subst l. exists []. split; [constructor|reflexivity].
    + apply results_of_snoc in H as (l1 & l2 & -> & R & Rs).
      destruct (IH _ Rs) as (ls & F & ->). exists (ls ++ [l1]). split; [apply Forall2_app; [exact F|constructor; [exact R|constructor]]|]. rewrite rev_app_distr. reflexivity.
  - intros (ls & F & ->). induction F as [|o x os ls R F IH]; [constructor|]. cbn [rev]. rewrite concat_app. cbn [concat]. rewrite app_nil_r.
    change (o :: os) with ([o] ++ os). apply results_join; [exact IH|]. apply results_single. exact R.
Qed.

(** ** Failures *)
Lemma work_fails fuel : forall stack g e, work fuel stack = Some g -> g_end g = Some e -> Exists fails stack.
Proof.
  induction fuel as [|n IH]; intros stack g e H E; [discriminate|]. cbn [ExtModel.work] in H. destruct stack as [|o rest]; [injection H as <-; discriminate|].
  destruct (is_result w classes o) eqn:I.
  - destruct (work n rest) as [g'|] eqn:W; [|discriminate]. injection H as <-. cbn [g_end] in E. apply Exists_cons_tl. eapply IH; eassumption.
  - destruct (extract_from w o) as [os|x] eqn:X.
    + pose proof (IH _ _ _ H E) as F. apply Exists_exists in F as (o' & I' & F). apply in_app_or in I' as [I'|I'].
      * apply Exists_cons_hd. apply (fl_below _ _ _ os o'); auto. apply in_rev. exact I'.
      * apply Exists_cons_tl. apply Exists_exists. exists o'. auto.
    + apply Exists_cons_hd. eapply fl_here; eassumption.
Qed.
Lemma results_not_fails :
  (forall o l, results o l -> ~ fails o) /\ (forall os l, results_of os l -> ~ Exists fails os).
Proof.
  apply results_mutind.
  - intros o E F. inversion F; congruence.
  - intros o os l E X _ IH F. inversion F as [|? os' o' ? X' I F']; [congruence|]. subst. assert (os' = os) by congruence. subst. apply IH. apply Exists_exists. exists o'. auto.
  - intros F. inversion F.
  - intros os o l l' _ IH1 _ IH2 F. apply Exists_app in F as [F|F]; [exact (IH2 F)|]. inversion F as [? ? F'|? ? F']; [exact (IH1 F')|inversion F'].
Qed.
Lemma all_finite_Forall os : all_finite os <-> Forall finite os.
Proof. split; induction 1; constructor; auto. Qed.
Lemma finite_cases :
  (forall o, finite o -> (exists l, results o l) \/ (fails o /\ forall rest, exists f g e, work f (o :: rest) = Some g /\ g_end g = Some e)) /\
  (forall os, all_finite os -> Forall (fun o => (exists l, results o l) \/ (fails o /\ forall rest, exists f g e, work f (o :: rest) = Some g /\ g_end g = Some e)) os).
Proof.
  assert (L : forall os, Forall (fun o => (exists l, results o l) \/ (fails o /\ forall rest, exists f g e, work f (o :: rest) = Some g /\ g_end g = Some e)) os ->
    (exists l, results_of os l) \/ (Exists fails os /\ forall rest, exists f g e, work f (rev os ++ rest) = Some g /\ g_end g = Some e)).
  { intros os. induction os as [|o os IH] using rev_ind; intros F; [left; exists []; constructor|]. apply Forall_app in F as [F1 F2]. inversion F2 as [|? ? F3 _]; subst.
    destruct F3 as [(l & R)|[Fo W]].
    - destruct (IH F1) as [(l' & R')|[E W]].
      + left. exists (l ++ l'). constructor; assumption.
      + right. split; [apply Exists_app; left; exact E|]. intros rest. destruct (W rest) as (f & g & e & W' & E'). destruct results_work as [RW _].
        destruct (RW _ _ R _ _ _ W') as (f' & W2). exists f'. rewrite rev_app_distr. cbn [rev app]. eexists. exists e. split; [exact W2|exact E'].
    - right. split; [apply Exists_app; right; constructor; exact Fo|]. intros rest. rewrite rev_app_distr. cbn [rev app]. apply W. }
  apply finite_mutind.
  - intros o E. left. exists [o]. constructor. exact E.
  - intros o e E X. right. split; [eapply fl_here; eassumption|]. intros rest. exists 1%nat. eexists. exists e. cbn [ExtModel.work]. rewrite E, X. split; reflexivity.
  - intros o os E X _ F. destruct (L os F) as [(l & R)|[Ex W]].
    + left. exists l. econstructor; eassumption.
    + right. split.
      * apply Exists_exists in Ex as (o' & I & F'). eapply fl_below; eassumption.
      * intros rest. destruct (W rest) as (f & g & e & W' & E'). exists (S f), g, e. cbn [ExtModel.work]. rewrite E, X. auto.
  - constructor.
  - intros o os _ H _ F. constructor; assumption.
Qed.
Lemma stack_fails os : Forall finite os -> Exists fails os -> forall rest, exists f g e, work f (rev os ++ rest) = Some g /\ g_end g = Some e.
Proof.
  intros F. induction os as [|o os IH] using rev_ind; intros E rest; [inversion E|]. apply Forall_app in F as [F1 F2]. inversion F2 as [|? ? Fo _]; subst.
  rewrite rev_app_distr. cbn [rev app]. destruct finite_cases as [FC _]. destruct (FC o Fo) as [(l & R)|[_ W]]; [|apply W].
  apply Exists_app in E as [E|E].
  - destruct (IH F1 E rest) as (f & g & e & W & G). destruct results_work as [RW _]. destruct (RW _ _ R _ _ _ W) as (f' & W2). exists f'. eexists. exists e. split; [exact W2|exact G].
  - exfalso. destruct results_not_fails as [N _]. apply (N _ _ R). inversion E as [? ? F'|? ? F']; [exact F'|inversion F'].
Qed.

(** ** Jobs *)
Lemma job_results f o l : job w classes f o = Some (Ok l) -> results o l.
Proof.
  unfold job, do_work. cbn [rev app]. destruct (work f [o]) as [[items [e|]]|] eqn:W; cbn [option_map gen_to_list g_end g_items]; try discriminate.
  intros H. injection H as <-. apply work_results in W. apply results_single. exact W.
Qed.
Lemma job_fails f o e : job w classes f o = Some (Err e) -> fails o.
Proof.
  unfold job, do_work. cbn [rev app]. destruct (work f [o]) as [[items [e'|]]|] eqn:W; cbn [option_map gen_to_list g_end g_items]; try discriminate.
  intros H. apply (work_fails _ _ _ e') in W; [|reflexivity]. inversion W as [? ? F|? ? F]; [exact F|inversion F].
Qed.
Lemma job_mono f o r k : job w classes f o = Some r -> job w classes (f + k) o = Some r.
Proof. unfold job, do_work. destruct (work f (rev [o])) as [g|] eqn:W; [|discriminate]. rewrite (work_mono _ _ _ k W). auto. Qed.
Lemma results_job o l : results o l -> exists f, job w classes f o = Some (Ok l).
Proof. intros R. apply results_single in R. apply do_work_results in R as (f & H). exists f. unfold job. rewrite H. reflexivity. Qed.
Lemma fails_job o : finite o -> fails o -> exists f e, job w classes f o = Some (Err e).
Proof.
  intros Fi F. destruct (stack_fails [o]) with (rest := @nil Obj) as (f & g & e & W & G); [constructor; [exact Fi|constructor]|constructor; exact F|].
  exists f, e. unfold job, do_work. cbn [rev app] in *. rewrite W. cbn [option_map]. unfold gen_to_list. rewrite G. reflexivity.
Qed.
(* a common fuel *)
Lemma common_fuel {B} (h : nat -> Obj -> option B) (M : forall f o r k, h f o = Some r -> h (f + k)%nat o = Some r) os rs :
  Forall2 (fun o r => exists f, h f o = Some r) os rs -> exists f, Forall2 (fun o r => h f o = Some r) os rs.
Proof.
  induction 1 as [|o r os rs (f & H) _ (f' & F)]; [exists O; constructor|]. exists (f + f')%nat. constructor; [apply M; exact H|]. clear - F M.
  induction F as [|o r os rs H _ IH]; constructor; [|exact IH]. rewrite Nat.add_comm. apply M. exact H.
Qed.
Lemma yield_ok (rs : list (res (list Obj))) : forall l, yield_all rs = mk_gen l None <-> exists ls, rs = map Ok ls /\ l = concat ls.
Proof.
  induction rs as [|r rs IH]; intros l; cbn [yield_all].
  - split; [intros H; injection H as <-; exists []; split; reflexivity|]. intros ([|] & E & ->); [reflexivity|discriminate].
  - destruct r as [x|e].
    + destruct (yield_all rs) as [items en] eqn:Y. cbn [g_items g_end]. split.
      * intros H. injection H as <- ->. destruct (proj1 (IH items) eq_refl) as (ls & -> & ->). exists (x :: ls). split; reflexivity.
      * intros (ls & E & ->). destruct ls as [|y ls]; [discriminate|]. cbn [map] in E. injection E as <- E. destruct (IH (concat ls)) as [_ B].
        assert (Y' : mk_gen items en = mk_gen (concat ls) None) by (apply B; exists ls; auto). injection Y' as -> ->. reflexivity.
    + split; [discriminate|]. intros ([|] & E & _); discriminate.
Qed.
Lemma yield_fails (rs : list (res (list Obj))) : (exists e, g_end (yield_all rs) = Some e) <-> exists e, In (Err e) rs.
Proof.
  induction rs as [|[x|e'] rs IH]; cbn [yield_all].
  - split; intros (e & H); [discriminate|contradiction].
  - cbn [g_end]. rewrite IH. split; intros (e & H); exists e; [right; exact H|destruct H as [H|H]; [discriminate|exact H]].
  - split; intros _; exists e'; [left; reflexivity|reflexivity].
Qed.
Lemma parallel_ok order l : (exists f, do_extraction_multithreaded w classes f order = Some (mk_gen l None)) <-> exists ls, Forall2 results order ls /\ l = concat ls.
Proof.
  unfold do_extraction_multithreaded. split.
  - intros (f & H). destruct (all_some (map (job w classes f) order)) as [rs|] eqn:A; [|discriminate]. injection H as H. apply yield_ok in H as (ls & -> & ->).
    exists ls. split; [|reflexivity]. apply Forall2_map_all in A. clear - A. revert ls A. induction order as [|o order IH]; intros [|l ls] A; inversion A; subst; constructor.
    + eapply job_results. eassumption.
    + apply IH. assumption.
  - intros (ls & F & ->). destruct (common_fuel (job w classes) job_mono order (map Ok ls)) as (f & F').
    + clear - F. induction F as [|o l os ls R _ IH]; constructor; [apply results_job; exact R|exact IH].
    + exists f. apply Forall2_map_all in F'. rewrite F'. cbn [option_map]. f_equal. apply yield_ok. exists ls. split; reflexivity.
Qed.

(** ** Schedules *)
Lemma extraction_ok objects workers order l : Permutation objects order ->
  (exists f, do_extraction w classes f objects workers order = Some (mk_gen l None)) ->
  exists ls, Forall2 results objects ls /\ Permutation l (concat ls).
Proof.
  intros P (f & H). unfold do_extraction in H. destruct ((1 <? workers) && (1 <? Z.of_nat (List.length objects)))%bool.
  - destruct (proj1 (parallel_ok order l) (ex_intro _ f H)) as (ls & F & ->). destruct (perm_Forall2 _ _ _ (Permutation_sym P) _ F) as (ls' & F' & P').
    exists ls'. split; [exact F'|]. apply perm_concat. exact P'.
  - assert (R : results_of objects l) by (apply do_work_results; exists f; exact H). apply results_of_Forall2 in R as (ls & F & ->). exists ls. split; [exact F|].
    apply perm_concat. apply Permutation_sym. apply Permutation_rev.
Qed.
Lemma extraction_any objects workers order ls : Permutation objects order -> Forall2 results objects ls ->
  exists f l, do_extraction w classes f objects workers order = Some (mk_gen l None) /\ Permutation l (concat ls).
Proof.
  intros P F. unfold do_extraction. destruct ((1 <? workers) && (1 <? Z.of_nat (List.length objects)))%bool.
  - destruct (perm_Forall2 _ _ _ P _ F) as (ls' & F' & P'). destruct (proj2 (parallel_ok order (concat ls'))) as (f & H); [exists ls'; auto|].
    exists f, (concat ls'). split; [exact H|]. apply perm_concat. apply Permutation_sym. exact P'.
  - destruct (proj2 (do_work_results objects (concat (rev ls)))) as (f & H); [apply results_of_Forall2; exists ls; auto|].
    exists f, (concat (rev ls)). split; [exact H|]. apply perm_concat. apply Permutation_sym. apply Permutation_rev.
Qed.
Theorem schedules objects workers order workers' order' f l : Permutation objects order -> Permutation objects order' ->
  do_extraction w classes f objects workers order = Some (mk_gen l None) ->
  exists f' l', do_extraction w classes f' objects workers' order' = Some (mk_gen l' None) /\ Permutation l l'.
Proof.
  intros P P' H. destruct (extraction_ok _ _ _ _ P (ex_intro _ f H)) as (ls & F & Q). destruct (extraction_any _ workers' _ _ P' F) as (f' & l' & H' & Q').
  exists f', l'. split; [exact H'|]. eapply Permutation_trans; [exact Q|apply Permutation_sym; exact Q'].
Qed.
Lemma extraction_fails objects workers order f g e : Permutation objects order ->
  do_extraction w classes f objects workers order = Some g -> g_end g = Some e -> Exists fails objects.
Proof.
  intros P H E. unfold do_extraction in H. destruct ((1 <? workers) && (1 <? Z.of_nat (List.length objects)))%bool.
  - unfold do_extraction_multithreaded in H. destruct (all_some (map (job w classes f) order)) as [rs|] eqn:A; [|discriminate]. injection H as <-.
    apply Forall2_map_all in A. destruct (proj1 (yield_fails rs) (ex_intro _ e E)) as (e' & I).
    assert (X : exists o, In o order /\ fails o).
    { clear - A I. induction A as [|o r os rs J _ IH]; [contradiction|]. destruct I as [->|I]; [exists o; split; [left; reflexivity|eapply job_fails; exact J]|].
      destruct (IH I) as (o' & I' & F). exists o'. split; [right; exact I'|exact F]. }
    destruct X as (o & I' & F). apply Exists_exists. exists o. split; [|exact F]. eapply Permutation_in; [apply Permutation_sym; exact P|exact I'].
  - apply (work_fails _ _ _ e) in H; [|exact E]. apply Exists_exists in H as (o & I & F). apply Exists_exists. exists o. split; [apply in_rev; exact I|exact F].
Qed.
Lemma extraction_any_fails objects workers order : Permutation objects order -> Forall finite objects -> Exists fails objects ->
  exists f g e, do_extraction w classes f objects workers order = Some g /\ g_end g = Some e.
Proof.
  intros P Fi E. unfold do_extraction. destruct ((1 <? workers) && (1 <? Z.of_nat (List.length objects)))%bool.
  - assert (Fi' : Forall finite order) by (apply Forall_forall; rewrite Forall_forall in Fi; intros o I; apply Fi; eapply Permutation_in; [apply Permutation_sym; exact P|exact I]).
    assert (J : exists rs, Forall2 (fun o r => exists f, job w classes f o = Some r) order rs).
    { clear - Fi'. induction Fi' as [|o os Fo _ (rs & F)]; [exists []; constructor|]. destruct finite_cases as [FC _]. destruct (FC o Fo) as [(l & R)|[Fl _]].
      - exists (Ok l :: rs). constructor; [apply results_job; exact R|exact F].
      - destruct (fails_job o Fo Fl) as (f & e & J). exists (Err e :: rs). constructor; [exists f; exact J|exact F]. }
    destruct J as (rs & J). destruct (common_fuel (job w classes) job_mono _ _ J) as (f & J'). exists f.
    unfold do_extraction_multithreaded. pose proof (proj2 (Forall2_map_all _ _ _) J') as A. rewrite A. cbn [option_map]. exists (yield_all rs).
    assert (X : exists e, In (Err e) rs).
    { apply Exists_exists in E as (o & I & F). apply (Permutation_in _ P) in I. clear - J' I F. induction J' as [|o' r os rs Jo _ IH]; [contradiction|].
      destruct I as [->|I]; [|destruct (IH I) as (e & I'); exists e; right; exact I']. destruct r as [l|e]; [|exists e; left; reflexivity].
      exfalso. apply job_results in Jo. destruct results_not_fails as [N _]. exact (N _ _ Jo F). }
    destruct (proj2 (yield_fails rs) X) as (e & G). exists e. auto.
  - destruct (stack_fails objects Fi E []) as (f & g & e & W & G). exists f, g, e. rewrite app_nil_r in W. auto.
Qed.
Theorem failures objects workers order workers' order' f g e : Permutation objects order -> Permutation objects order' -> Forall finite objects ->
  do_extraction w classes f objects workers order = Some g -> g_end g = Some e ->
  exists f' g' e', do_extraction w classes f' objects workers' order' = Some g' /\ g_end g' = Some e'.
Proof. intros P P' Fi H E. apply extraction_any_fails; [exact P'|exact Fi|]. exact (extraction_fails _ _ _ _ _ _ P H E). Qed.
Theorem extraction_det f f' objects workers order g g' :
  do_extraction w classes f objects workers order = Some g -> do_extraction w classes f' objects workers order = Some g' -> g = g'.
Proof.
  unfold do_extraction. destruct ((1 <? workers) && (1 <? Z.of_nat (List.length objects)))%bool.
  - unfold do_extraction_multithreaded. intros H H'. destruct (all_some (map (job w classes f) order)) as [rs|] eqn:A; [|discriminate].
    destruct (all_some (map (job w classes f') order)) as [rs'|] eqn:A'; [|discriminate]. injection H as <-. injection H' as <-. f_equal.
    apply Forall2_map_all in A, A'. revert rs' A'. induction A as [|o r os rs J _ IH]; intros rs' A'; inversion A' as [|? r' ? rs2 J' A2]; subst; [reflexivity|]. f_equal.
    + apply (job_mono _ _ _ f') in J. apply (job_mono _ _ _ f) in J'. rewrite Nat.add_comm in J'. congruence.
    + apply IH. exact A2.
  - apply work_det.
Qed.
End extraction.
