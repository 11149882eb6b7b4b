(* Proofs about the command line program. *)
From Verif Require Import PyBase PyBaseFacts IdModel LineModel DateModel RefModel TreeModel StructModel SemModel GazModel GazSpec GazProofs2 D2oModel CacheModel ExtModel ExtSpec ExtProofs HtmlModel TxtModel TxtSpec TxtProofs3
  PipeModel PipeSpec PipeProofs CliModel CliSpec P_Txt P_Gaz.
From Coq Require Import Lia.
From Coq Require Import Permutation.
Local Open Scope Z_scope.

(** * Issues *)
Lemma split_slash_spec s : forall before, (forall y n, split_slash before s = Some (y, n) -> exists y', y = before ++ y' /\ s = y' ++ u8 "/" ++ n /\ ~ In 47%N y') /\
  (split_slash before s = None -> ~ In 47%N s).
Proof.
  induction s as [|c s IH]; intros before; [split; [discriminate|intros _ []]|]. cbn [split_slash]. destruct (N.eqb_spec c 47) as [->|N].
  - split; [|discriminate]. intros y n H. injection H as <- <-. exists []. split; [symmetry; apply app_nil_r|]. split; [reflexivity|intros []].
  - destruct (IH (before ++ [c])) as [I1 I2]. split.
    + intros y n H. destruct (I1 _ _ H) as (y' & -> & -> & NI). exists (c :: y'). rewrite <- app_assoc. split; [reflexivity|]. split; [reflexivity|]. intros [E|I]; [congruence|contradiction].
    + intros H [E|I]; [congruence|exact (I2 H I)].
Qed.
Lemma split_slash_at y n : ~ In 47%N y -> forall before, split_slash before (y ++ u8 "/" ++ n) = Some (before ++ y, n).
Proof.
  induction y as [|c y IH]; intros N before.
  - cbn [split_slash app]. rewrite app_nil_r. reflexivity.
  - cbn [app split_slash]. destruct (N.eqb_spec c 47) as [->|E]; [destruct N; left; reflexivity|]. change (split_slash (before ++ [c]) (y ++ u8 "/" ++ n) = Some (before ++ c :: y, n)).
    rewrite IH; [|intros I; apply N; right; exact I]. rewrite <- app_assoc. reflexivity.
Qed.
Lemma py_int_error s e : py_int s = Err e -> e = ValueError.
Proof.
  assert (D : forall t b a e, int_digits b a t = Err e -> e = ValueError).
  { induction t as [|c t IH]; intros b a err; cbn [int_digits]; [destruct b; congruence|]. destruct (c =? 95)%N; [destruct b; [apply IH|congruence]|]. destruct (decimal_value c); [apply IH|congruence]. }
  unfold py_int. destruct (rev (drop_while int_space (rev (drop_while int_space s)))) as [|c t]; [congruence|].
  destruct (c =? 45)%N; [|destruct (c =? 43)%N]; match goal with |- context [int_digits ?b ?a ?t] => destruct (int_digits b a t) eqn:E; cbn [bind]; [discriminate|]; intros H; injection H as <-; exact (D _ _ _ _ E) end.
Qed.
Theorem issue_ok s y n : parse_issue s = Ok (y, n) <-> issue_written s y n.
Proof.
  unfold parse_issue, issue_written. split.
  - destruct (split_slash [] s) as [[a b]|] eqn:E; [|discriminate]. destruct (proj1 (split_slash_spec s []) _ _ E) as (y' & -> & -> & N). cbn [app].
    intros H. apply bind_ok in H as (i & E1 & H). apply bind_ok in H as (j & E2 & H). injection H as <- <-. exists y', b. auto.
  - intros (a & b & -> & N & E1 & E2). rewrite (split_slash_at a b N []). cbn [app]. rewrite E1. cbn [bind]. rewrite E2. reflexivity.
Qed.
Theorem issue_error s e : parse_issue s = Err e -> e = ValueError.
Proof.
  unfold parse_issue. destruct (split_slash [] s) as [[a b]|]; [|congruence]. destruct (py_int a) as [i|] eqn:E1; cbn [bind]; [|intros H; injection H as <-; exact (py_int_error _ _ E1)].
  destruct (py_int b) as [j|] eqn:E2; cbn [bind]; [discriminate|intros H; injection H as <-; exact (py_int_error _ _ E2)].
Qed.

(** * Documents *)
Lemma document_fun o n d : document o n d -> n = identifier_of (the_act o) /\ d = the_act o.
Proof. intros []; auto. Qed.
Lemma document_ok w f o r : output_fn w f (the_act o) = Ok r -> document o (identifier_of (the_act o)) (the_act o).
Proof. destruct o; try (destruct f; cbn; discriminate); intros _; cbn [the_act identifier_of]; constructor. Qed.
Lemma skipped_asked a o : skipped a o = false <-> asked a (identifier_of o).
Proof.
  unfold skipped, asked. destruct (ar_step a) eqn:E.
  2,3: split; [auto|reflexivity].
  all: destruct (ar_single_act a) as [i|]; [|split; [intros _; right; right; discriminate|reflexivity]].
  all: destruct (str_eqb (identifier_of o) i) eqn:S; cbn [negb].
  all: try (apply str_eqb_eq in S; subst; split; [intros _; right; right; congruence|reflexivity]).
  all: split; [discriminate|]; intros [X|[X|X]]; try discriminate; rewrite (X _ eq_refl), str_eqb_refl in S; discriminate.
Qed.
Lemma shown_fun w a dir n o p t n' p' t' : shown w a dir n o p t -> shown w a dir n' o p' t' -> n = n' /\ p = p' /\ t = t'.
Proof.
  intros [o1 d t1 out D A R] H. inversion H as [o2 d' t2 out' D' A' R']; subst. apply document_fun in D as [-> ->]. apply document_fun in D' as [-> ->].
  rewrite R in R'. injection R' as <- _. auto.
Qed.
Lemma one_file w f o t out : splits (wr_wrapper w) -> output_fn w f o = Ok (t, out) -> out = [].
Proof.
  intros S. unfold output_fn. destruct f.
  - destruct o; cbn [txt_output bind]; try discriminate.
    + intros H. apply bind_ok in H as (x' & E & H). injection H as <- <-. destruct (C50_raw _ _ _ E) as (rows & -> & F).
      unfold printed. rewrite !flat_map_app. cbn [flat_map app fst Bool.eqb]. rewrite app_nil_r. clear - F. induction F as [|[b s] l ps ls [E _] _ IH]; [reflexivity|]. cbn [fst] in E. subst b. exact IH.
    + intros H. apply bind_ok in H as (x' & E & H). injection H as <- <-. exact (proj1 (C50_in_order _ _ _ _ S (fun H : 90 = 0 => ltac:(discriminate H)) E)).
  - intros H. apply bind_ok in H as (x' & E & H). injection H as <- <-. reflexivity.
  - destruct o; try discriminate. intros H. apply bind_ok in H as (x' & E & H). injection H as <- <-. reflexivity.
Qed.

(** * Files *)
(* what is needed for a step without an error *)
Definition step_ok (w : writers) (a : args) (dir : pystr) (D : pystr -> bool) (o : obj) : Prop :=
  skipped a (the_act o) = true \/
  (let p := file_path a dir (the_act o) in (match path_dirname p with [] => true | _ => D (path_dirname p) end && negb (D p))%bool = true /\ exists r, output_fn w (ar_format a) (the_act o) = Ok r).
Lemma one_ok w a dir o s s' : splits (wr_wrapper w) -> ar_output_dir a = Some dir -> output_one w a o s = (s', None) ->
  step_ok w a dir (fs_dir (cs_fs s)) o /\ cs_stdout s' = cs_stdout s /\ fs_dir (cs_fs s') = fs_dir (cs_fs s) /\
  ((exists n p t, shown w a dir n o p t /\ forall q, fs_file (cs_fs s') q = if str_eqb q p then Some t else fs_file (cs_fs s) q) \/
   ((forall n p t, ~ shown w a dir n o p t) /\ s' = s)).
Proof.
  intros S D. unfold output_one, step_ok. rewrite D. destruct (skipped a (the_act o)) eqn:K.
  - intros H. injection H as <-. split; [left; reflexivity|]. split; [reflexivity|]. split; [reflexivity|]. right. split; [|reflexivity].
    intros n p t Sh. inversion Sh as [o1 d t1 out Do A R]; subst. apply document_fun in Do as [-> ->]. apply skipped_asked in A. congruence.
  - cbv zeta. match goal with |- (if ?c then _ else _) = _ -> _ => destruct c eqn:C end; [|discriminate].
    destruct (output_fn w (ar_format a) (the_act o)) as [[t out]|] eqn:R; [|discriminate]. intros H. injection H as <-.
    split; [right; split; [first [exact C|reflexivity]|eexists; reflexivity]|]. cbn [cs_stdout cs_fs]. rewrite (one_file _ _ _ _ _ S R), app_nil_r. split; [reflexivity|]. split; [reflexivity|].
    left. exists (identifier_of (the_act o)), (file_path a dir (the_act o)), t. split; [|intros q; reflexivity].
    econstructor; [exact (document_ok w _ o _ R)|apply skipped_asked; exact K|exact R].
Qed.
Lemma ok_one w a dir o s : ar_output_dir a = Some dir -> step_ok w a dir (fs_dir (cs_fs s)) o -> exists s', output_one w a o s = (s', None).
Proof.
  intros D H. unfold output_one. rewrite D. destruct H as [H|(C & [t out] & R)]; [rewrite H; eexists; reflexivity|].
  destruct (skipped a (the_act o)); [eexists; reflexivity|]. cbv zeta. cbv zeta in C. rewrite C, R. eexists. reflexivity.
Qed.
Lemma all_ok w a dir l : splits (wr_wrapper w) -> ar_output_dir a = Some dir -> forall s s', output_all w a l s = (s', None) ->
  Forall (step_ok w a dir (fs_dir (cs_fs s))) l /\ cs_stdout s' = cs_stdout s /\ fs_dir (cs_fs s') = fs_dir (cs_fs s) /\
  forall p, file_after w a dir l p (fs_file (cs_fs s) p) (fs_file (cs_fs s') p).
Proof.
  intros S D. induction l as [|o l IH]; intros s s' H; cbn [output_all] in H.
  - injection H as <-. split; [constructor|]. split; [reflexivity|]. split; [reflexivity|]. intros p. apply fa_same. intros o n t [].
  - destruct (output_one w a o s) as [s1 [e|]] eqn:E; [discriminate|]. destruct (one_ok w a dir o s s1 S D E) as (K & O & Di & X).
    destruct (IH _ _ H) as (F & O' & D' & A). rewrite Di in F, D'. split; [constructor; assumption|]. split; [congruence|]. split; [congruence|].
    intros p. specialize (A p). inversion A as [l1 o' n l2 t El Sh No|No Same]; subst.
    + apply (fa_written w a dir (o :: l1 ++ o' :: l2) p _ (o :: l1) o' n l2 t); [reflexivity|exact Sh|exact No].
    + destruct X as [(n & p0 & t & Sh & Fi)|[N ->]].
      * rewrite Fi. destruct (str_eqb p p0) eqn:Ep.
        -- apply str_eqb_eq in Ep. subst p0. apply (fa_written w a dir (o :: l) p _ [] o n l t); [reflexivity|exact Sh|exact No].
        -- apply fa_same. intros o' n' t' [<-|I] Sh'; [|exact (No _ _ _ I Sh')]. destruct (shown_fun _ _ _ _ _ _ _ _ _ _ Sh Sh') as (_ & -> & _). rewrite str_eqb_refl in Ep. discriminate.
      * apply fa_same. intros o' n' t' [<-|I] Sh'; [exact (N _ _ _ Sh')|exact (No _ _ _ I Sh')].
Qed.
Lemma ok_all w a dir l : splits (wr_wrapper w) -> ar_output_dir a = Some dir -> forall s, Forall (step_ok w a dir (fs_dir (cs_fs s))) l -> exists s', output_all w a l s = (s', None).
Proof.
  intros S D. induction l as [|o l IH]; intros s F; cbn [output_all]; [eexists; reflexivity|]. inversion F as [|? ? F1 F2]; subst.
  destruct (ok_one w a dir o s D F1) as (s1 & E). rewrite E. apply IH. destruct (one_ok w a dir o s s1 S D E) as (_ & _ & -> & _). exact F2.
Qed.
Theorem files_ok w a dir g s s' : splits (wr_wrapper w) -> ar_output_dir a = Some dir -> run_from w a g s = (s', None) ->
  g_end g = None /\ cs_stdout s' = cs_stdout s /\ (forall p, file_after w a dir (g_items g) p (fs_file (cs_fs s) p) (fs_file (cs_fs s') p)).
Proof.
  intros S D. unfold run_from. rewrite D. unfold io_makedirs. match goal with |- context [if ?c then _ else _] => destruct c end; cbn [o_res final o_states last]; [discriminate|].
  destruct (output_all _ _ _ _) as [s1 [e|]] eqn:E; [discriminate|]. intros H. injection H as <- G. split; [exact G|].
  destruct (all_ok w a dir _ S D _ _ E) as (_ & O & _ & A). split; [exact O|exact A].
Qed.

(** * Standard output *)
Lemma stdout_all w a l : splits (wr_wrapper w) -> ar_output_dir a = None -> forall s s', output_all w a l s = (s', None) ->
  cs_fs s' = cs_fs s /\ exists ts, cs_stdout s' = cs_stdout s ++ concat ts /\
    Forall2 (fun o t => (exists n p, shown w a [] n o p t) \/ ((forall n p t, ~ shown w a [] n o p t) /\ t = [])) l ts.
Proof.
  intros S D. induction l as [|o l IH]; intros s s' H; cbn [output_all] in H.
  - injection H as <-. split; [reflexivity|]. exists []. split; [symmetry; apply app_nil_r|constructor].
  - unfold output_one in H. rewrite D in H. destruct (skipped a (the_act o)) eqn:K.
    + destruct (IH _ _ H) as (F & ts & O & A). split; [exact F|]. exists ([] :: ts). split; [exact O|]. constructor; [|exact A]. right. split; [|reflexivity].
      intros n p t Sh. inversion Sh as [o1 d t1 out Do A' R]; subst. apply document_fun in Do as [-> ->]. apply skipped_asked in A'. congruence.
    + destruct (output_fn w (ar_format a) (the_act o)) as [[t out]|] eqn:R; [|discriminate]. destruct (IH _ _ H) as (F & ts & O & A). cbn [cs_fs cs_stdout] in F, O. split; [exact F|].
      exists (t :: ts). rewrite (one_file _ _ _ _ _ S R), app_nil_r in O. cbn [concat]. split; [rewrite O, app_assoc; reflexivity|]. constructor; [|exact A]. left.
      do 2 eexists. econstructor; [exact (document_ok w _ o _ R)|apply skipped_asked; exact K|exact R].
Qed.
Theorem stdout_ok w a g s s' : splits (wr_wrapper w) -> ar_output_dir a = None -> run_from w a g s = (s', None) ->
  g_end g = None /\ cs_fs s' = cs_fs s /\ exists ts, cs_stdout s' = cs_stdout s ++ concat ts /\
    Forall2 (fun o t => (exists n p, shown w a [] n o p t) \/ ((forall n p t, ~ shown w a [] n o p t) /\ t = [])) (g_items g) ts.
Proof.
  intros S D. unfold run_from. rewrite D. destruct (output_all _ _ _ _) as [s1 [e|]] eqn:E; [discriminate|]. intros H. injection H as <- G. split; [exact G|].
  exact (stdout_all w a _ S D _ _ E).
Qed.

(** * Names *)
Definition no_slash_first (n : pystr) : Prop := forall t, n <> 47%N :: t.
Lemma join_inj dir n n' e : no_slash_first n -> no_slash_first n' -> path_join dir (n ++ u8 "." ++ e) = path_join dir (n' ++ u8 "." ++ e) -> n = n'.
Proof.
  assert (P : forall n, no_slash_first n -> startswith (u8 "/") (n ++ u8 "." ++ e) = false).
  { intros [|c t] N; [reflexivity|]. change (startswith (u8 "/") ((c :: t) ++ u8 "." ++ e)) with ((47 =? c)%N && true)%bool. destruct (N.eqb_spec 47 c) as [<-|]; [destruct (N t eq_refl)|reflexivity]. }
  intros N N'. unfold path_join. rewrite (P n N), (P n' N'). destruct (rev dir) as [|c t].
  - apply app_inv_tail.
  - destruct (c =? 47)%N; intros H.
    + apply app_inv_head in H. apply app_inv_tail in H. exact H.
    + apply app_inv_head in H. apply app_inv_head in H. apply app_inv_tail in H. exact H.
Qed.
Definition names (l : list obj) : list pystr := map (fun o => identifier_of (the_act o)) l.
Lemma NoDup_map_inj {A B} (f : A -> B) l x y : NoDup (map f l) -> In x l -> In y l -> f x = f y -> x = y.
Proof.
  induction l as [|z l IH]; intros N I J E; [contradiction|]. cbn [map] in N. inversion N as [|? ? N1 N2]; subst. destruct I as [->|I], J as [->|J].
  - reflexivity.
  - destruct N1. rewrite E. apply in_map. exact J.
  - destruct N1. rewrite <- E. apply in_map. exact I.
  - exact (IH N2 I J E).
Qed.
Lemma file_after_perm w a dir l l' p b c c' : Permutation l l' -> NoDup (names l) -> Forall (fun o => no_slash_first (identifier_of (the_act o))) l ->
  file_after w a dir l p b c -> file_after w a dir l' p b c' -> c = c'.
Proof.
  intros P N F. assert (U : forall o o' n n' t t', In o l -> In o' l -> shown w a dir n o p t -> shown w a dir n' o' p t' -> t = t').
  { intros o o' n n' t t' I I' S S'. inversion S as [o1 d t1 out D A R E1 E2 E3]; subst. inversion S' as [o2 d' t2 out' D' A' R' E1' E2' E3']; subst.
    destruct (document_fun _ _ _ D) as [-> ->]. destruct (document_fun _ _ _ D') as [-> ->].
    assert (o = o'); [|subst; congruence]. apply (NoDup_map_inj (fun o => identifier_of (the_act o)) l); [exact N|exact I|exact I'|].
    rewrite Forall_forall in F. symmetry. exact (join_inj _ _ _ _ (F _ I') (F _ I) E2'). }
  intros A A'. inversion A as [l1 o n l2 t E S No|No]; inversion A' as [l1' o' n' l2' t' E' S' No'|No']; subst.
  - f_equal. apply (U o o' n n'); [apply in_elt| |exact S|exact S']. apply (Permutation_in _ (Permutation_sym P)). apply in_elt.
  - destruct (No' o n t); [|exact S]. apply (Permutation_in _ P). apply in_elt.
  - destruct (No o' n' t'); [|exact S']. apply (Permutation_in _ (Permutation_sym P)). apply in_elt.
  - reflexivity.
Qed.
(* what comes out of an issue is called as laws are *)
Definition lawful (o : obj) : Prop :=
  match o with
  | ORaw x => law_header (lw_identifier x)
  | OStruct a | OBlock a | OAct a => law_header (act_identifier a)
  | _ => True
  end.
Lemma laws_headed d ls ws : laws_among d ls ws -> Forall (fun w => law_header (lw_identifier w)) ws.
Proof. induction 1 as [|gap ls w rest ws (e & h & sub & raw & x & y & z & _ & _ & H & E & _) _ IH]; constructor; [rewrite E; exact H|exact IH]. Qed.
Lemma lawful_closed e o os : lawful o -> extract_from (hun_world e) o = Ok os -> Forall lawful os.
Proof.
  intros L. unfold extract_from. destruct o; cbn [hun_world w_extractors w_class class_of extractors run_extractors].
  1-4: cbn [all_of g_items g_end]; match goal with |- context [match g_end ?g with _ => _ end] => destruct (g_end g) end;
    [discriminate|]; cbn [bind]; intros H; injection H as <-; rewrite app_nil_r; apply Forall_forall; intros o' I; apply in_map_iff in I as (y & <- & _); exact Logic.I.
  - cbn [all_of g_items g_end]. destruct (g_end (law_extractor s)); [discriminate|]. cbn [bind]. intros H; injection H as <-. rewrite app_nil_r. apply Forall_forall. intros o' I.
    apply in_map_iff in I as (y & <- & I). pose proof (laws_headed _ _ _ (C46_laws s)) as F. rewrite Forall_forall in F. exact (F _ I).
  - unfold to_structure_only, one. match goal with |- context [match ?g with Ok _ => _ | Err _ => _ end] => destruct g eqn:E end; cbn; [|discriminate].
    intros H; injection H as <-. apply bind_ok in E as (b & _ & E). apply parse_act_named in E as (E & _). constructor; [|constructor]. cbn. rewrite E. exact L.
  - unfold enrich_with_block_amendments, one. destruct (block_parse_act _ _) eqn:E; cbn; [|discriminate]. intros H; injection H as <-. apply block_act_named in E as (E & _). constructor; [|constructor]. cbn. rewrite E. exact L.
  - unfold enrich_with_other_semantic_data, one. destruct (add_semantics_to_act _ _) eqn:E; cbn; [|discriminate]. intros H; injection H as <-. apply sem_act_named in E as (E & _). constructor; [|constructor]. cbn. rewrite E. exact L.
  - discriminate.
Qed.
Lemma lawful_work e classes f : forall stack g, Forall lawful stack -> work (hun_world e) classes f stack = Some g -> Forall lawful (g_items g).
Proof.
  induction f as [|f IH]; intros stack g F W; [discriminate|]. cbn [work] in W. destruct stack as [|o rest]; [injection W as <-; constructor|]. inversion F as [|? ? F1 F2]; subst.
  destruct (is_result (hun_world e) classes o).
  - destruct (work (hun_world e) classes f rest) as [g1|] eqn:W1; [|discriminate]. injection W as <-. constructor; [exact F1|exact (IH _ _ F2 W1)].
  - destruct (extract_from (hun_world e) o) as [os|err] eqn:X; [|injection W as <-; constructor]. apply (IH _ _) in W; [exact W|].
    apply Forall_app. split; [apply Forall_rev; exact (lawful_closed _ _ _ F1 X)|exact F2].
Qed.
Lemma lawful_extraction e classes f objects workers order g : Forall lawful objects -> Forall lawful order ->
  do_extraction (hun_world e) classes f objects workers order = Some g -> Forall lawful (g_items g).
Proof.
  intros F F'. unfold do_extraction. destruct ((1 <? workers) && (1 <? Z.of_nat (List.length objects)))%bool.
  - unfold do_extraction_multithreaded. destruct (all_some (map (job (hun_world e) classes f) order)) as [rs|] eqn:A; [|discriminate]. intros H. injection H as <-. apply Forall2_map_all in A.
    assert (R : Forall (fun r => forall l, r = Ok l -> Forall lawful l) rs).
    { clear - A F'. induction A as [|o r os rs J _ IH]; [constructor|]. inversion F' as [|? ? F1 F2]; subst. constructor; [|exact (IH F2)]. intros l ->.
      unfold job in J. destruct (do_work (hun_world e) classes f [o]) as [g|] eqn:W; [|discriminate]. cbn [option_map] in J. injection J as J.
      assert (L : Forall lawful (g_items g)) by (eapply lawful_work; [|exact W]; cbn; constructor; [exact F1|constructor]).
      unfold gen_to_list in J. destruct (g_end g); [discriminate|]. injection J as <-. exact L. }
    clear - R. induction R as [|r rs L _ IH]; [constructor|]. cbn [yield_all]. destruct r as [l|err]; [|constructor]. cbn [g_items]. apply Forall_app. split; [exact (L l eq_refl)|exact IH].
  - intros H. eapply lawful_work; [|exact H]. apply Forall_rev. exact F.
Qed.
Lemma header_slash n : law_header n -> no_slash_first n.
Proof. intros (a & b & c & d & dot & number & dot' & rest & -> & A & _) t E. injection E as E _. subst a. vm_compute in A. destruct A as [A|[A|[]]]; discriminate A. Qed.
Lemma issues_lawful a : Forall lawful (issues_of a).
Proof. apply Forall_forall. intros o I. apply in_map_iff in I as (y & <- & _). exact Logic.I. Qed.
Theorem names_ok e a f order g : Permutation (issues_of a) order -> extracted_of e a f order = Some g -> Forall (fun o => forall n d, document o n d -> law_header n) (g_items g).
Proof.
  intros P H. assert (L : Forall lawful (g_items g)) by (apply (lawful_extraction e _ f _ _ _ g (issues_lawful a)) in H; [exact H|]; rewrite <- P; apply issues_lawful).
  eapply Forall_impl; [|exact L]. intros o Lo n d D. destruct D; exact Lo.
Qed.

(** * The class of what is extracted *)
Section results_only.
Context (e : env) (classes : list cls).
Let right (o : obj) : Prop := In (class_of o) classes.
Lemma is_result_class o : is_result (hun_world e) classes o = true -> right o.
Proof.
  unfold is_result, right. intros H. apply existsb_exists in H as (c & I & E). cbn in E. assert (class_of o = c); [|congruence].
  destruct o, c; cbn in E; discriminate || reflexivity.
Qed.
Lemma right_work f : forall stack g, work (hun_world e) classes f stack = Some g -> Forall right (g_items g).
Proof.
  induction f as [|f IH]; intros stack g W; [discriminate|]. cbn [work] in W. destruct stack as [|o rest]; [injection W as <-; constructor|].
  destruct (is_result (hun_world e) classes o) eqn:R.
  - destruct (work (hun_world e) classes f rest) as [g1|] eqn:W1; [|discriminate]. injection W as <-. constructor; [now apply is_result_class|exact (IH _ _ W1)].
  - destruct (extract_from (hun_world e) o) as [os|err] eqn:X; [|injection W as <-; constructor]. exact (IH _ _ W).
Qed.
Lemma right_extraction f objects workers order g : do_extraction (hun_world e) classes f objects workers order = Some g -> Forall right (g_items g).
Proof.
  unfold do_extraction. destruct ((1 <? workers) && (1 <? Z.of_nat (List.length objects)))%bool; [|apply right_work].
  unfold do_extraction_multithreaded. destruct (all_some (map (job (hun_world e) classes f) order)) as [rs|] eqn:A; [|discriminate]. intros H. injection H as <-. apply Forall2_map_all in A.
  assert (R : Forall (fun r => forall l, r = Ok l -> Forall right l) rs).
  { induction A as [|o r os rs J _ IH]; [constructor|]. constructor; [|exact IH]. intros l ->.
    unfold job in J. destruct (do_work (hun_world e) classes f [o]) as [g|] eqn:W; [|discriminate]. cbn [option_map] in J. injection J as J. apply right_work in W.
    unfold gen_to_list in J. destruct (g_end g); [discriminate|]. injection J as <-. exact W. }
  clear - R. induction R as [|r rs L _ IH]; [constructor|]. cbn [yield_all]. destruct r as [l|err]; [|constructor]. cbn [g_items]. apply Forall_app. split; [exact (L l eq_refl)|exact IH].
Qed.
End results_only.
Theorem step_class_ok e a f order g : extracted_of e a f order = Some g -> Forall (made_by (ar_step a)) (g_items g).
Proof.
  intros H. apply right_extraction in H. eapply Forall_impl; [|exact H]. intros o [E|[]]. destruct (ar_step a), o; cbn in E; discriminate || constructor.
Qed.

(** * Workers *)
Definition with_workers (a : args) (n : Z) : args := mk_args (ar_format a) (ar_issues a) (ar_output_dir a) (ar_single_act a) (ar_step a) n.
Theorem workers_ok e w a dir f order s s1 n order' g : splits (wr_wrapper w) -> ar_output_dir a = Some dir ->
  Permutation (issues_of a) order -> Permutation (issues_of a) order' ->
  extracted_of e a f order = Some g -> NoDup (names (g_items g)) -> run e w a f order s = Some (s1, None) ->
  exists f' s2, run e w (with_workers a n) f' order' s = Some (s2, None) /\ cs_stdout s2 = cs_stdout s1 /\ forall p, fs_file (cs_fs s2) p = fs_file (cs_fs s1) p.
Proof.
  intros S D P P' X N H. unfold run in H. rewrite X in H. cbn [option_map] in H. injection H as H.
  destruct (files_ok w a dir g s s1 S D H) as (G & O & A). destruct g as [l end_]. cbn [g_end g_items] in *. subst end_.
  unfold extracted_of in X. destruct (schedules (hun_world e) _ _ _ _ n order' _ _ P P' X) as (f' & l' & X' & PL).
  assert (L : Forall lawful l) by (apply (lawful_extraction e _ f _ _ _ _ (issues_lawful a)) in X; [exact X|]; rewrite <- P; apply issues_lawful).
  assert (NS : Forall (fun o => no_slash_first (identifier_of (the_act o))) l).
  { eapply Forall_impl; [|exact L]. intros o Lo. destruct o; cbn in Lo; try (intros t; discriminate); apply header_slash; exact Lo. }
  (* the other run succeeds *)
  unfold run_from in H. rewrite D in H. cbn zeta in H.
  destruct (o_res (io_makedirs dir (cs_fs s))) as [u|] eqn:M; [|discriminate H]. cbn [g_items g_end] in H.
  destruct (output_all w a l _) as [s1' [err|]] eqn:E; [discriminate|]. injection H as ->.
  destruct (all_ok w a dir l S D _ _ E) as (K & _ & _ & _).
  set (a' := with_workers a n) in *. assert (K' : Forall (step_ok w a' dir (fs_dir (cs_fs (mk_cli (final (cs_fs s) (io_makedirs dir (cs_fs s))) (cs_stdout s))))) l').
  { rewrite <- PL. exact K. }
  destruct (ok_all w a' dir l' S D _ K') as (s2 & E').
  assert (R : run_from w a' (mk_gen l' None) s = (s2, None)).
  { unfold run_from. change (ar_output_dir a') with (ar_output_dir a). rewrite D. cbn zeta. rewrite M. cbn [g_items g_end]. rewrite E'. reflexivity. }
  exists f', s2. destruct (files_ok w a' dir _ s s2 S D R) as (_ & O' & A'). split; [|split; [congruence|]].
  - unfold run, extracted_of. change (issues_of a') with (issues_of a). change (ar_step a') with (ar_step a). change (ar_workers a') with n. rewrite X'. cbn [option_map]. rewrite R. reflexivity.
  - intros p. symmetry. apply (file_after_perm w a dir l l' p (fs_file (cs_fs s) p)); [exact PL|exact N|exact NS|exact (A p)|].
    assert (Same : forall b c, file_after w a' dir l' p b c -> file_after w a dir l' p b c).
    { assert (Sh : forall n0 o q t, shown w a' dir n0 o q t <-> shown w a dir n0 o q t).
      { intros. split; intros Q; inversion Q as [o1 d t1 out Do As R']; subst; [exact (sh_intro w a dir n0 o d t out Do As R')|exact (sh_intro w a' dir n0 o d t out Do As R')]. }
      intros b c FA. inversion FA as [l1 o m l2 t El Sh' No|No]; subst.
      - eapply fa_written; [reflexivity|apply Sh; exact Sh'|]. intros o' n' t' I Q. apply Sh in Q. exact (No _ _ _ I Q).
      - apply fa_same. intros o m t I Q. apply Sh in Q. exact (No _ _ _ I Q). }
    apply Same. exact (A' p).
Qed.
