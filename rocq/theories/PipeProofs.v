(* Proofs about the extractors of the whole program. *)
From Verif Require Import PyBase PyBaseFacts IdModel LineModel DateModel RefModel TreeModel StructModel SemModel SemSpec FixupModel GazModel CacheModel ExtModel ExtSpec ExtProofs PipeModel PipeSpec.
From Coq Require Import Lia.
From Coq Require Import Permutation.
Local Open Scope Z_scope.

(** * It ends *)
Definition rank (o : obj) : nat :=
  match o with
  | ODownload _ _ => 8 | OFile _ => 7 | OPages _ => 6 | OIssue _ => 5 | OSection _ => 4 | ORaw _ => 3 | OStruct _ => 2 | OBlock _ => 1 | OAct _ => 0
  end%nat.
Lemma one_below e o os : extract_from (hun_world e) o = Ok os -> forall o', In o' os -> (rank o' < rank o)%nat.
Proof.
  unfold extract_from. destruct o; cbn [hun_world w_extractors w_class class_of extractors run_extractors].
  all: try discriminate.
  1-5: cbn [all_of g_items g_end]; match goal with |- context [match g_end ?g with _ => _ end] => destruct (g_end g) end;
    [discriminate|]; cbn [bind]; intros H; injection H as <-; rewrite app_nil_r; intros o' I; apply in_map_iff in I as (y & <- & _); cbn; lia.
  - unfold to_structure_only, one. match goal with |- context [match ?g with Ok _ => _ | Err _ => _ end] => destruct g end; cbn; [|discriminate].
    intros H; injection H as <-. intros o' [<-|[]]. cbn. lia.
  - unfold enrich_with_block_amendments, one. destruct (block_parse_act _ _); cbn; [|discriminate]. intros H; injection H as <-. intros o' [<-|[]]. cbn. lia.
  - unfold enrich_with_other_semantic_data, one. destruct (add_semantics_to_act _ _); cbn; [|discriminate]. intros H; injection H as <-. intros o' [<-|[]]. cbn. lia.
Qed.
Lemma all_end e classes n : forall o, (rank o < n)%nat -> finite (hun_world e) classes o.
Proof.
  induction n as [|n IH]; intros o L; [lia|].
  destruct (is_result (hun_world e) classes o) eqn:R; [constructor; exact R|].
  destruct (extract_from (hun_world e) o) as [os|x] eqn:X; [|eapply fi_error; eassumption].
  eapply fi_extract; [exact R|exact X|]. apply all_finite_Forall. apply Forall_forall. intros o' I.
  apply IH. pose proof (one_below _ _ _ X _ I). lia.
Qed.
Lemma everything_ends e classes o : finite (hun_world e) classes o.
Proof. apply (all_end e classes (S (rank o))). lia. Qed.

(** * Steps *)
Definition target (s : step) : cls := step_class s.
Lemma reads_exists e s x : exists r, reads e x s r.
Proof.
  destruct s; [exists (Ok (ORaw x)); constructor| | |].
  all: destruct (do_all_fixups (e_fixups e) (lw_identifier x) (lw_body x)) as [body|err] eqn:F;
    [|exists (Err err); apply rd_fixup_error; [discriminate|exact F]].
  all: destruct (parse_act (lw_identifier x) (lw_date x) (lw_subject x) body) as [a|err] eqn:P;
    [|exists (Err err); eapply rd_structure_error; [discriminate|exact F|exact P]].
  - exists (Ok (OStruct a)). econstructor; eassumption.
  - destruct (block_parse_act (e_analyzer e) a) as [b|err] eqn:B.
    + exists (Ok (OBlock b)). eapply rd_block; [econstructor; eassumption|exact B].
    + exists (Err err). eapply rd_block_error; [auto|econstructor; eassumption|exact B].
  - destruct (block_parse_act (e_analyzer e) a) as [b|err] eqn:B.
    + assert (R : reads e x BaOnly (Ok (OBlock b))) by (eapply rd_block; [econstructor; eassumption|exact B]).
      destruct (add_semantics_to_act (e_analyzer e) b) as [c|err] eqn:S.
      * exists (Ok (OAct c)). eapply rd_full; eassumption.
      * exists (Err err). eapply rd_full_error; eassumption.
    + exists (Err err). eapply rd_block_error; [auto|econstructor; eassumption|exact B].
Qed.
(* what work does with a law *)
Lemma work_law e s x r rest f g : reads e x s r -> work (hun_world e) [step_class s] f rest = Some g ->
  exists f', work (hun_world e) [step_class s] f' (ORaw x :: rest) =
    Some (match r with Ok o => mk_gen (o :: g_items g) (g_end g) | Err err => mk_gen [] (Some err) end).
Proof.
  set (w := hun_world e).
  (* one step of the loop *)
  assert (YIELD : forall c f o rest g, cls_eqb (class_of o) c = true -> work w [c] f rest = Some g ->
    work w [c] (S f) (o :: rest) = Some (mk_gen (o :: g_items g) (g_end g))).
  { intros c f0 o rest0 g0 E W. cbn [work]. unfold is_result. cbn [existsb w hun_world w_class_eqb w_class]. rewrite E. cbn [orb]. fold w. rewrite W. reflexivity. }
  assert (FAIL : forall c o rest err, cls_eqb (class_of o) c = false -> extract_from w o = Err err ->
    work w [c] 1 (o :: rest) = Some (mk_gen [] (Some err))).
  { intros c o rest0 err E X. cbn [work]. unfold is_result. cbn [existsb w hun_world w_class_eqb w_class]. rewrite E. cbn [orb]. fold w. rewrite X. reflexivity. }
  assert (NEXT : forall c f o o' rest, cls_eqb (class_of o) c = false -> extract_from w o = Ok [o'] ->
    work w [c] (S f) (o :: rest) = work w [c] f (o' :: rest)).
  { intros c f0 o o' rest0 E X. cbn [work]. unfold is_result. cbn [existsb w hun_world w_class_eqb w_class]. rewrite E. cbn [orb]. fold w. rewrite X. reflexivity. }
  assert (XR : forall body, do_all_fixups (e_fixups e) (lw_identifier x) (lw_body x) = Ok body ->
    extract_from w (ORaw x) = match parse_act (lw_identifier x) (lw_date x) (lw_subject x) body with Ok a => Ok [OStruct a] | Err err => Err err end).
  { intros body F. unfold extract_from, w. cbn [hun_world w_extractors w_class class_of extractors run_extractors]. unfold to_structure_only. rewrite F. cbn [bind].
    destruct (parse_act _ _ _ _); reflexivity. }
  assert (XF : forall err, do_all_fixups (e_fixups e) (lw_identifier x) (lw_body x) = Err err -> extract_from w (ORaw x) = Err err).
  { intros err F. unfold extract_from, w. cbn [hun_world w_extractors w_class class_of extractors run_extractors]. unfold to_structure_only. rewrite F. reflexivity. }
  assert (XS : forall a, extract_from w (OStruct a) = match block_parse_act (e_analyzer e) a with Ok b => Ok [OBlock b] | Err err => Err err end).
  { intros a. unfold extract_from, w. cbn [hun_world w_extractors w_class class_of extractors run_extractors]. unfold enrich_with_block_amendments.
    destruct (block_parse_act _ _); reflexivity. }
  assert (XB : forall a, extract_from w (OBlock a) = match add_semantics_to_act (e_analyzer e) a with Ok b => Ok [OAct b] | Err err => Err err end).
  { intros a. unfold extract_from, w. cbn [hun_world w_extractors w_class class_of extractors run_extractors]. unfold enrich_with_other_semantic_data.
    destruct (add_semantics_to_act _ _); reflexivity. }
  assert (TS : forall c a, reads e x StructureOnly (Ok (OStruct a)) -> cls_eqb CRaw c = false -> forall f rest, work w [c] (S f) (ORaw x :: rest) = work w [c] f (OStruct a :: rest)).
  { intros c a R E f0 rest0. inversion R as [| |body F a' P| | | | |]; subst. apply NEXT; [exact E|]. rewrite (XR _ F), P. reflexivity. }
  assert (TB : forall c b, reads e x BaOnly (Ok (OBlock b)) -> cls_eqb CRaw c = false -> cls_eqb CStruct c = false -> forall f rest, work w [c] (S (S f)) (ORaw x :: rest) = work w [c] f (OBlock b :: rest)).
  { intros c b R E E' f0 rest0. inversion R as [| | | |a b' R' B| | |]; subst. rewrite (TS c a R' E). apply NEXT; [exact E'|]. rewrite XS, B. reflexivity. }
  intros R W. destruct R as [|s err N F|body F a P|s body err N F P|a b R B|s a err C R B|b c R S|b err R S].
  - exists (Datatypes.S f). apply YIELD; [reflexivity|exact W].
  - exists 1%nat. apply FAIL; [destruct s; [contradiction|reflexivity..]|exact (XF _ F)].
  - exists (Datatypes.S (Datatypes.S f)). rewrite (TS (step_class StructureOnly) a (rd_structure e x body F a P) eq_refl). apply YIELD; [reflexivity|exact W].
  - exists 1%nat. apply FAIL; [destruct s; [contradiction|reflexivity..]|rewrite (XR _ F), P; reflexivity].
  - exists (Datatypes.S (Datatypes.S (Datatypes.S f))). rewrite (TB (step_class BaOnly) b (rd_block e x a b R B) eq_refl eq_refl). apply YIELD; [reflexivity|exact W].
  - exists 2%nat. rewrite (TS (step_class s) a R); [|destruct C as [-> | ->]; reflexivity]. apply FAIL; [destruct C as [-> | ->]; reflexivity|]. rewrite XS, B. reflexivity.
  - exists (Datatypes.S (Datatypes.S (Datatypes.S (Datatypes.S f)))). rewrite (TB (step_class Full) b R eq_refl eq_refl). rewrite (NEXT (step_class Full) (Datatypes.S f) (OBlock b) (OAct c) rest eq_refl); [|rewrite XB, S; reflexivity].
    apply YIELD; [reflexivity|exact W].
  - exists 3%nat. rewrite (TB (step_class Full) b R eq_refl eq_refl). apply FAIL; [reflexivity|]. rewrite XB, S. reflexivity.
Qed.
Lemma early_closed e o os : before_acts o -> (forall x, o <> ORaw x) -> extract_from (hun_world e) o = Ok os -> Forall before_acts os.
Proof.
  intros B N. unfold extract_from. destruct o; cbn in B; try contradiction; cbn [hun_world w_extractors w_class class_of extractors run_extractors].
  6: destruct (N x eq_refl).
  all: cbn [all_of g_items g_end]; match goal with |- context [match g_end ?g with _ => _ end] => destruct (g_end g) end;
    [discriminate|]; cbn [bind]; intros H; injection H as <-; rewrite app_nil_r; apply Forall_forall; intros o' I; apply in_map_iff in I as (y & <- & _); exact I.
Qed.
Lemma stages e s f : forall stack g, Forall before_acts stack -> work (hun_world e) [CRaw] f stack = Some g ->
  exists xs f' g', g_items g = map ORaw xs /\ reads_all e s (g_end g) xs g' /\ work (hun_world e) [step_class s] f' stack = Some g'.
Proof.
  induction f as [|f IH]; intros stack g F W; [discriminate|]. destruct stack as [|o rest].
  { cbn [work] in W. injection W as <-. exists [], 1%nat, (mk_gen [] None). split; [reflexivity|]. split; [constructor|reflexivity]. }
  inversion F as [|? ? Fo Fr]; subst. destruct (cls_eqb (class_of o) CRaw) eqn:E.
  - destruct o; try discriminate E. cbn [work] in W. unfold is_result in W. cbn in W. fold (hun_world e) in W.
    change (work {| w_class := class_of; w_class_eqb := cls_eqb; w_extractors := extractors e |}) with (work (hun_world e)) in W.
    destruct (work (hun_world e) [CRaw] f rest) as [g1|] eqn:W1; [|discriminate]. injection W as <-.
    destruct (IH _ _ Fr W1) as (xs & f' & g' & I & R & W'). destruct (reads_exists e s x) as (r & Rx).
    destruct (work_law e s x r rest f' g' Rx W') as (f2 & W2). exists (x :: xs), f2. eexists. split; [cbn [g_items map]; rewrite I; reflexivity|].
    split; [|exact W2]. cbn [g_end]. destruct r as [o|err]; [apply ra_cons; assumption|apply ra_error; exact Rx].
  - assert (N : forall x, o <> ORaw x) by (intros x ->; discriminate E).
    assert (E' : cls_eqb (class_of o) (step_class s) = false) by (destruct o; cbn in Fo; try contradiction; destruct s; try reflexivity; exact E).
    cbn [work] in W. unfold is_result in W. cbn [existsb w_class_eqb w_class hun_world] in W. rewrite E in W. cbn [orb] in W.
    change (mk_world class_of cls_eqb (extractors e)) with (hun_world e) in W.
    destruct (extract_from (hun_world e) o) as [os|err] eqn:X.
    + destruct (IH (rev os ++ rest) g) as (xs & f' & g' & I & R & W'); [|exact W|].
      { apply Forall_app. split; [|exact Fr]. apply Forall_rev. exact (early_closed e o os Fo N X). }
      exists xs, (S f'), g'. split; [exact I|]. split; [exact R|]. cbn [work]. unfold is_result. cbn [existsb w_class_eqb w_class hun_world]. rewrite E'. cbn [orb].
      change (mk_world class_of cls_eqb (extractors e)) with (hun_world e). rewrite X. exact W'.
    + injection W as <-. exists [], 1%nat. eexists. split; [reflexivity|]. split; [constructor|]. cbn [work]. unfold is_result. cbn [existsb w_class_eqb w_class hun_world]. rewrite E'. cbn [orb].
      change (mk_world class_of cls_eqb (extractors e)) with (hun_world e). rewrite X. reflexivity.
Qed.

(** * Whole runs *)
Lemma reads_all_end e s last xs l end_ : reads_all e s last xs (mk_gen l end_) -> end_ = None -> last = None /\ Forall2 (fun x o => reads e x s (Ok o)) xs l.
Proof.
  intros R. remember (mk_gen l end_) as g eqn:G. revert l G. induction R as [|x xs o g R RA IH|x xs err R]; intros l G E; injection G as <- <-.
  - split; [exact E|constructor].
  - destruct (IH (g_items g)) as [L F]; [|exact E|]; [destruct g; cbn in *; congruence|]. split; [exact L|]. constructor; assumption.
  - discriminate.
Qed.
Lemma reads_all_ok e s xs l : Forall2 (fun x o => reads e x s (Ok o)) xs l -> reads_all e s None xs (mk_gen l None).
Proof. induction 1 as [|x o xs l R F IH]; [constructor|]. exact (ra_cons e s None x xs o _ R IH). Qed.
Lemma reads_det e x s r : reads e x s r -> forall r', reads e x s r' -> r = r'.
Proof.
  intros R. induction R as [|s err N F|body F a P|s body err N F P|a b R IH B|s a err C R IH B|b c R IH S|b err R IH S]; intros r' R'.
  - inversion R'; subst; try reflexivity; try contradiction. match goal with H : _ \/ _ |- _ => destruct H; discriminate end.
  - inversion R'; subst; try contradiction; try congruence.
    all: try (match goal with H : reads _ _ StructureOnly (Ok (OStruct _)) |- _ => inversion H; subst; congruence end).
    all: match goal with H : reads _ _ BaOnly (Ok (OBlock _)) |- _ => inversion H; subst end.
    all: match goal with H : reads _ _ StructureOnly (Ok (OStruct _)) |- _ => inversion H; subst; congruence end.
  - inversion R'; subst; try congruence. match goal with H : _ \/ _ |- _ => destruct H; discriminate end.
  - inversion R'; subst; try contradiction; try congruence.
    all: try (match goal with H : reads _ _ StructureOnly (Ok (OStruct _)) |- _ => inversion H; subst; congruence end).
    all: match goal with H : reads _ _ BaOnly (Ok (OBlock _)) |- _ => inversion H; subst end.
    all: match goal with H : reads _ _ StructureOnly (Ok (OStruct _)) |- _ => inversion H; subst; congruence end.
  - inversion R' as [|? ? N F| |? ? ? N F P|a' b' R2 B2|? a' err C R2 B2| |]; subst.
    + inversion R; subst; congruence.
    + inversion R; subst; congruence.
    + specialize (IH _ R2). congruence.
    + specialize (IH _ R2). congruence.
  - inversion R' as [|? ? N F|? F ? P|? ? ? N F P|a' b' R2 B2|? a' err' C2 R2 B2|b' c' R2 S2|b' err' R2 S2]; subst.
    + destruct C; discriminate.
    + inversion R; subst; congruence.
    + destruct C; discriminate.
    + inversion R; subst; congruence.
    + specialize (IH _ R2). congruence.
    + specialize (IH _ R2). congruence.
    + inversion R2; subst. match goal with H : reads _ _ StructureOnly (Ok (OStruct _)) |- _ => specialize (IH _ H) end. congruence.
    + inversion R2; subst. match goal with H : reads _ _ StructureOnly (Ok (OStruct _)) |- _ => specialize (IH _ H) end. congruence.
  - inversion R' as [|? ? N F|? F ? P|? ? ? N F P|a' b' R2 B2|? a' err' C2 R2 B2|b' c' R2 S2|b' err' R2 S2]; subst.
    + inversion R; subst. match goal with H : reads _ _ StructureOnly (Ok (OStruct _)) |- _ => inversion H; subst; congruence end.
    + inversion R; subst. match goal with H : reads _ _ StructureOnly (Ok (OStruct _)) |- _ => inversion H; subst; congruence end.
    + assert (X : Ok (OBlock b) = Err err'); [|discriminate X]. apply IH. eapply rd_block_error; [left; reflexivity|exact R2|exact B2].
    + specialize (IH _ R2). congruence.
    + specialize (IH _ R2). congruence.
  - inversion R' as [|? ? N F|? F ? P|? ? ? N F P|a' b' R2 B2|? a' err' C2 R2 B2|b' c' R2 S2|b' err' R2 S2]; subst.
    + inversion R; subst. match goal with H : reads _ _ StructureOnly (Ok (OStruct _)) |- _ => inversion H; subst; congruence end.
    + inversion R; subst. match goal with H : reads _ _ StructureOnly (Ok (OStruct _)) |- _ => inversion H; subst; congruence end.
    + assert (X : Ok (OBlock b) = Err err'); [|discriminate X]. apply IH. eapply rd_block_error; [left; reflexivity|exact R2|exact B2].
    + specialize (IH _ R2). congruence.
    + specialize (IH _ R2). congruence.
Qed.
Lemma work_ends e classes objects : exists f g, do_work (hun_world e) classes f objects = Some g.
Proof.
  assert (Fi : Forall (finite (hun_world e) classes) objects) by (apply Forall_forall; intros o _; apply everything_ends).
  destruct (finite_cases (hun_world e) classes) as [_ FC].
  pose proof (FC objects (proj2 (all_finite_Forall _ _ objects) Fi)) as C.
  assert (D : Forall (fun o => exists l, results (hun_world e) classes o l) objects \/ Exists (fails (hun_world e) classes) objects).
  { clear - C. induction C as [|o os [R|[F _]] _ IH]; [left; constructor| |right; constructor; exact F].
    destruct IH as [IH|IH]; [left; constructor; assumption|right; apply Exists_cons_tl; exact IH]. }
  destruct D as [D|D].
  - assert (X : exists ls, Forall2 (results (hun_world e) classes) objects ls).
    { clear - D. induction D as [|o os (l & R) _ (ls & F)]; [exists []; constructor|exists (l :: ls); constructor; assumption]. }
    destruct X as (ls & F). destruct (proj2 (do_work_results (hun_world e) classes objects (concat (rev ls)))) as (f & W); [apply results_of_Forall2; exists ls; auto|].
    exists f. eexists. exact W.
  - destruct (stack_fails (hun_world e) classes objects Fi D []) as (f & g & err & W & _). rewrite app_nil_r in W. exists f, g. exact W.
Qed.
Lemma extraction_ends e classes objects workers order : Permutation objects order -> exists f g, do_extraction (hun_world e) classes f objects workers order = Some g.
Proof.
  intros P. unfold do_extraction. destruct ((1 <? workers) && (1 <? Z.of_nat (List.length objects)))%bool; [|apply work_ends].
  unfold do_extraction_multithreaded.
  assert (X : exists rs, Forall2 (fun o r => exists f, job (hun_world e) classes f o = Some r) order rs).
  { clear. induction order as [|o os (rs & F)]; [exists []; constructor|]. destruct (work_ends e classes [o]) as (f & g & W).
    exists (gen_to_list g :: rs). constructor; [|exact F]. exists f. unfold job. rewrite W. reflexivity. }
  destruct X as (rs & F). destruct (common_fuel (fun f o => job (hun_world e) classes f o) (fun f o r k => job_mono (hun_world e) classes f o r k) order rs F) as (f & F').
  apply Forall2_map_all in F'. exists f, (yield_all rs). rewrite F'. reflexivity.
Qed.
Theorem work_steps e s objects f g : Forall before_acts objects -> do_work (hun_world e) [CRaw] f objects = Some g ->
  exists xs g', g_items g = map ORaw xs /\ reads_all e s (g_end g) xs g' /\ exists f', do_work (hun_world e) [step_class s] f' objects = Some g'.
Proof.
  intros B W. destruct (stages e s f (rev objects) g (Forall_rev B) W) as (xs & f' & g' & I & R & W'). exists xs, g'. split; [exact I|]. split; [exact R|]. exists f'. exact W'.
Qed.
Lemma results_steps e s o l : before_acts o ->
  results (hun_world e) [step_class s] o l <-> exists xs, results (hun_world e) [CRaw] o (map ORaw xs) /\ Forall2 (fun x o => reads e x s (Ok o)) xs l.
Proof.
  intros B. assert (B' : Forall before_acts [o]) by (constructor; [exact B|constructor]). split.
  - intros R. destruct (work_ends e [CRaw] [o]) as (f & g & W). destruct (work_steps e s [o] f g B' W) as (xs & g' & I & RA & f' & W').
    apply results_single in R. apply do_work_results in R as (f2 & W2). pose proof (work_det _ _ _ _ _ _ _ W' W2) as ->.
    apply reads_all_end in RA as [L F]; [|reflexivity]. exists xs. split; [|exact F]. apply results_single. apply do_work_results. exists f. rewrite W. destruct g. cbn in *. subst. reflexivity.
  - intros (xs & R & F). apply results_single in R. apply do_work_results in R as (f & W). destruct (work_steps e s [o] f _ B' W) as (xs' & g' & I & RA & f' & W').
    cbn [g_items g_end] in *. assert (xs' = xs).
    { clear - I. revert xs' I. induction xs as [|x xs IH]; intros [|y ys] I; try discriminate; [reflexivity|]. injection I as -> I. f_equal. exact (IH _ (eq_sym I)) || exact (IH _ I). }
    subst. apply results_single. apply do_work_results. exists f'. rewrite W'. f_equal.
    clear - RA F. revert l F. remember (@None exn) as last eqn:L. induction RA as [|x xs o g R RA IH|x xs err R]; intros l F; inversion F as [|? o' ? l' R' F']; subst.
    + reflexivity.
    + pose proof (reads_det _ _ _ _ R _ R') as X. injection X as ->. rewrite (IH l' F'). reflexivity.
    + pose proof (reads_det _ _ _ _ R _ R') as X. discriminate.
Qed.
(* any number of workers *)
Theorem extraction_steps e s objects workers order l f : Forall before_acts objects -> Permutation objects order ->
  do_extraction (hun_world e) [step_class s] f objects workers order = Some (mk_gen l None) ->
  exists xs f', do_extraction (hun_world e) [CRaw] f' objects workers order = Some (mk_gen (map ORaw xs) None) /\
    Forall2 (fun x o => reads e x s (Ok o)) xs l.
Proof.
  intros B P. assert (B' : Forall before_acts order) by (rewrite <- P; exact B).
  assert (Many : forall os ls, Forall before_acts os -> Forall2 (results (hun_world e) [step_class s]) os ls ->
    exists xss, Forall2 (results (hun_world e) [CRaw]) os (map (map ORaw) xss) /\ Forall2 (Forall2 (fun x o => reads e x s (Ok o))) xss ls).
  { intros os ls Bo F. induction F as [|o l0 os ls R F IH]; [exists []; split; constructor|]. inversion Bo as [|? ? B1 B2]; subst.
    destruct (proj1 (results_steps e s o l0 B1) R) as (xs & R1 & F1). destruct (IH B2) as (xss & R2 & F2). exists (xs :: xss). split; constructor; assumption. }
  assert (C : forall xss ls, Forall2 (Forall2 (fun x o => reads e x s (Ok o))) xss ls -> Forall2 (fun x o => reads e x s (Ok o)) (concat xss) (concat ls)).
  { induction 1; cbn [concat]; [constructor|apply Forall2_app; assumption]. }
  assert (M : forall xss, concat (map (map ORaw) xss) = map ORaw (concat xss)) by (intros; symmetry; apply concat_map).
  unfold do_extraction. destruct ((1 <? workers) && (1 <? Z.of_nat (List.length objects)))%bool; intros H.
  - destruct (proj1 (parallel_ok (hun_world e) [step_class s] order l) (ex_intro _ f H)) as (ls & F & ->). destruct (Many _ _ B' F) as (xss & R & F2).
    exists (concat xss). destruct (proj2 (parallel_ok (hun_world e) [CRaw] order (map ORaw (concat xss)))) as (f' & W); [exists (map (map ORaw) xss); split; [exact R|symmetry; apply M]|].
    exists f'. split; [exact W|]. apply C. exact F2.
  - assert (R : results_of (hun_world e) [step_class s] objects l) by (apply do_work_results; exists f; exact H). apply results_of_Forall2 in R as (ls & F & ->).
    destruct (Many _ _ B F) as (xss & R & F2). exists (concat (rev xss)).
    destruct (proj2 (do_work_results (hun_world e) [CRaw] objects (map ORaw (concat (rev xss))))) as (f' & W).
    { apply results_of_Forall2. exists (map (map ORaw) xss). split; [exact R|]. rewrite <- map_rev. symmetry. apply M. }
    exists f'. split; [exact W|]. apply C. clear - F2. induction F2; cbn [rev]; [constructor|]. apply Forall2_app; [assumption|]. constructor; [assumption|constructor].
Qed.

(** * The gazette *)
Lemma raw_results e x : results (hun_world e) [CRaw] (ORaw x) [ORaw x].
Proof. constructor. reflexivity. Qed.
Lemma raw_many e xs : results_of (hun_world e) [CRaw] (map ORaw xs) (map ORaw (rev xs)).
Proof.
  induction xs as [|x xs IH] using rev_ind; [constructor|]. rewrite map_app, rev_app_distr. cbn [map rev app].
  change (ORaw x :: map ORaw (rev xs)) with ([ORaw x] ++ map ORaw (rev xs)). constructor; [apply raw_results|exact IH].
Qed.
Lemma extract_all {A} e o (f : A -> obj) g : extract_from (hun_world e) o = run_extractors [fun _ => all_of f g] o -> g_end g = None ->
  extract_from (hun_world e) o = Ok (map f (g_items g)).
Proof. intros -> E. cbn [run_extractors all_of g_end g_items bind]. rewrite E. cbn. rewrite app_nil_r. reflexivity. Qed.
Theorem gazette_results e pages ls : gazette_laws pages ls -> results (hun_world e) [CRaw] (OPages pages) (map ORaw (rev ls)).
Proof.
  intros [p H|p k ss lss H S L].
  - eapply rs_extract; [reflexivity|apply (extract_all e _ OIssue (header_extractor p)); [reflexivity|rewrite H; reflexivity]|]. rewrite H. constructor.
  - eapply rs_extract; [reflexivity|apply (extract_all e _ OIssue (header_extractor p)); [reflexivity|rewrite H; reflexivity]|]. rewrite H. cbn [g_items map].
    apply results_single. eapply rs_extract; [reflexivity|apply (extract_all e _ OSection (section_extractor k)); [reflexivity|rewrite S; reflexivity]|]. rewrite S. cbn [g_items].
    apply results_of_Forall2. exists (map (fun l => map ORaw (rev l)) lss). split.
    + clear - L. induction L as [|s l ss lss E _ IH]; [constructor|]. cbn [map]. constructor; [|exact IH].
      eapply rs_extract; [reflexivity|apply (extract_all e _ ORaw (law_extractor s)); [reflexivity|rewrite E; reflexivity]|]. rewrite E. apply raw_many.
    + clear. induction lss as [|l lss IH]; [reflexivity|]. cbn [concat map rev]. rewrite rev_app_distr, map_app, IH, concat_app. cbn [concat]. rewrite app_nil_r. reflexivity.
Qed.
Theorem gazettes_reversed e s ps lss : Forall2 gazette_laws ps lss ->
  exists g f, reads_all e s None (rev (concat lss)) g /\ do_work (hun_world e) [step_class s] f (map OPages ps) = Some g.
Proof.
  intros F. assert (R : results_of (hun_world e) [CRaw] (map OPages ps) (map ORaw (rev (concat lss)))).
  { apply results_of_Forall2. exists (map (fun l => map ORaw (rev l)) lss). split.
    - clear - F. induction F as [|p l ps lss G _ IH]; [constructor|]. cbn [map]. constructor; [exact (gazette_results e p l G)|exact IH].
    - clear. induction lss as [|l lss IH]; [reflexivity|]. cbn [concat map rev]. rewrite rev_app_distr, map_app, IH, concat_app. cbn [concat]. rewrite app_nil_r. reflexivity. }
  apply do_work_results in R as (f & W). assert (B : Forall before_acts (map OPages ps)).
  { apply Forall_forall. intros o I. apply in_map_iff in I as (y & <- & _). exact Logic.I. }
  destruct (work_steps e s (map OPages ps) f _ B W) as (xs & g' & I & RA & f' & W').
  cbn [g_items g_end] in *. exists g', f'. split; [|exact W']. replace (rev (concat lss)) with xs; [exact RA|].
  clear - I. revert xs I. generalize (rev (concat lss)). intros l. induction l as [|x l IH]; intros [|y ys] I; try discriminate; [reflexivity|]. injection I as -> I. f_equal. exact (IH _ (eq_sym I)) || exact (IH _ I).
Qed.

(** * Names *)
Lemma parse_act_named i d s lines a : parse_act i d s lines = Ok a -> act_identifier a = i /\ act_publication_date a = d /\ act_subject a = s.
Proof. unfold parse_act. match goal with |- match ?r with _ => _ end = _ -> _ => destruct r as [[preamble elements]|] end; [|discriminate]. intros H. injection H as <-. auto. Qed.
Lemma block_act_named an a b : block_parse_act an a = Ok b -> act_identifier b = act_identifier a /\ act_publication_date b = act_publication_date a /\ act_subject b = act_subject a.
Proof. unfold block_parse_act. intros H. apply bind_ok in H as (cs & _ & H). injection H as <-. auto. Qed.
Lemma sem_act_named an a b : add_semantics_to_act an a = Ok b -> act_identifier b = act_identifier a /\ act_publication_date b = act_publication_date a /\ act_subject b = act_subject a.
Proof.
  unfold add_semantics_to_act. destruct (act_is_semantic_parsed a); intros H; [injection H as <-; auto|]. apply bind_ok in H as ([cs st] & _ & H). injection H as <-. auto.
Qed.
Theorem reads_named e x s o : reads e x s (Ok o) -> named o (lw_identifier x) (lw_subject x) (lw_date x).
Proof.
  intros R. remember (Ok o) as r eqn:E. revert o E. induction R as [|s err N F|body F a P|s body err N F P|a b R IH B|s a err C R IH B|b c R IH S|b err R IH S]; intros o E; injection E as <- || discriminate E.
  - cbn. auto.
  - apply parse_act_named in P as (? & ? & ?). cbn. auto.
  - destruct (IH _ eq_refl) as (? & ? & ?). apply block_act_named in B as (? & ? & ?). cbn. split; [|split]; congruence.
  - destruct (IH _ eq_refl) as (? & ? & ?). apply sem_act_named in S as (? & ? & ?). cbn. split; [|split]; congruence.
Qed.
