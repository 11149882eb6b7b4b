(* Proofs for IssueSpec: pages, sections, laws, acts and files one after the other. *)
From Coq Require Import Lia Permutation.
From Verif Require P_Law P_Fit JsonSpec JsonProofs.
From Verif Require Import PyBase PyBaseFacts IdModel LineModel DateModel DateSpec DateProofs TreeModel SemModel FixupModel PegModel PdfModel PdfSpec PdfProofs PdfProofs3 PdfProofs4 GazModel GazSpec GazProofs GazProofs2
  D2oModel D2oSpec D2oHun D2oHunSpec CacheModel CacheSpec CacheProofs ExtModel ExtSpec ExtProofs HtmlModel TxtModel TxtSpec PipeModel PipeSpec PipeProofs CliModel CliSpec CliProofs IssueSpec.
Local Open Scope Z_scope.

(** * Pages *)
Lemma rightmost_unique bs m m' : Forall (fun b => proper (f_add (tb_width b) (tb_x b))) bs -> is_rightmost bs m -> is_rightmost bs m' -> m = m'.
Proof.
  intros F ((b & I & ->) & M) ((b' & I' & ->) & M'). rewrite Forall_forall in F.
  destruct (lt_total _ _ (F _ I) (F _ I')) as [L|[E|L]]; [destruct (M _ I' L)|exact E|destruct (M' _ I L)].
Qed.
Theorem page_read cs ls : page_printed cs ls -> extract_single_page (flat_map char_boxes cs) = Ok ls.
Proof.
  intros (G & N & P & E & C & rs & m & R & M & ->). destruct (page_ok _ N P C) as (rs' & m' & R' & M' & X).
  rewrite (rows_unique _ _ _ P R R'), (rightmost_unique _ _ _ E M M'). exact X.
Qed.
Theorem pages_read miner b css pages : miner b = Ok (flat_map page_events css) -> Forall2 page_printed css pages -> parse_pdf miner b = Ok pages.
Proof.
  intros M F. unfold parse_pdf. rewrite M. cbn [bind]. assert (G : Forall (Forall good_char) css) by (clear M; induction F as [|cs ls css pages P _ IH]; constructor; [apply P|exact IH]).
  pose proof (pages_ok [] css (Forall_nil _) G) as X. cbn [map app] in X. rewrite X. cbn [bind]. unfold extract_lines. apply mapM_ok.
  clear M G X. induction F as [|cs ls css pages P _ IH]; cbn [map]; constructor; [exact (page_read _ _ P)|exact IH].
Qed.

(** * Laws *)
Lemma passed_loop d gap : passed_over gap -> forall lines, law_loop d machine_init (gap ++ lines) = law_loop d machine_init lines.
Proof.
  induction 1 as [|l ls B P IH|e l ls B H P IH]; intros lines; cbn [app]; [reflexivity| |].
  - rewrite <- (IH lines). apply loop_step. unfold feed_line, machine_init. cbn [m_state m_identifier m_subject m_body].
    destruct (is_empty_line l) eqn:E; [apply blank_ok in E; contradiction|reflexivity].
  - apply blank_ok in B. rewrite (loop_step d machine_init e _ (mk_machine WAITING_FOR_HEADER [] [] []))
      by (unfold feed_line, machine_init; cbn [m_state m_identifier m_subject m_body]; rewrite B; reflexivity).
    rewrite <- (IH lines). apply loop_step. unfold feed_line. cbn [m_state m_identifier m_subject m_body].
    destruct (match_header (l_content l)) eqn:E; [apply header_ok in E; contradiction|reflexivity].
Qed.
Theorem section_read d ls ws : laws_printed d ls ws -> law_extractor (mk_section d ls) = mk_gen ws None.
Proof.
  unfold law_extractor. cbn [ls_date ls_lines]. induction 1 as [ls last P L|gap e h ls subject raw body x y z rest ws G B Hh S T L IH].
  - rewrite passed_loop by exact P. destruct L as [->|(e & -> & B)]; [reflexivity|]. cbn [law_loop feed_line machine_init m_state]. reflexivity.
  - rewrite passed_loop by exact G. pose proof (laws_found d [] e h ls subject raw body x y z rest (Forall_nil _) B Hh S T) as X. cbv zeta in X.
    unfold law_extractor in X. cbn [ls_date ls_lines app] in X. cbn [app]. rewrite X, IH. reflexivity.
Qed.

(** * Issues *)
Lemma date_read s d : date_written s d -> from_hungarian_text s = Ok d.
Proof.
  intros (S & ys & ds & rest & Y & D & R & ->). destruct d as [y m d]. cbn [d_year d_month d_day] in *.
  assert (M : 1 <= m <= 12).
  { destruct S as [(_ & len & ML & _) _]. cbn [d_year d_month] in ML. inversion ML as [y0 m0 I|y0 m0 I|y0 L|y0 L]; subst; cbn in *; lia. }
  rewrite (hungarian_text_parse ys ds y m d rest Y M D R). now apply Date_ok.
Qed.
Theorem issue_read d pages laws : issue_printed d pages laws -> gazette_laws pages laws.
Proof.
  intros (l0 & l1 & l2 & l3 & l4 & front & rest & rs & lss & -> & T & D & W & N & G & C & L & ->).
  destruct (recognized_ok l0 (l1 :: l2 :: l3 :: l4 :: front) rest l3 eq_refl) as [H _]. specialize (H T). rewrite (date_read _ _ D) in H.
  set (k := mk_issue d _) in H. assert (K : written_pages k = flat_map rn_pages rs).
  { rewrite <- W. unfold written_pages, k. cbn [is_pages map hp_lines skipn]. rewrite map_map. reflexivity. }
  destruct (sections_ok k) as [(rs' & E & N' & G' & C' & S)|[[E _]|(p & r & E & U & _)]].
  - rewrite K in E. assert (rs' = rs) as -> by (apply runs_unique; auto). change (is_date k) with d in S.
    apply (gl_laws _ k (laws_of_runs d rs) lss H S). unfold laws_of_runs. rewrite <- (map_map run_content (mk_section d)).
    clear - L. induction L as [|ls ws lls lss P _ IH]; cbn [map]; constructor; [exact (section_read _ _ _ P)|exact IH].
  - exfalso. rewrite K in E. destruct rs as [|r rs]; [contradiction|]. inversion G as [|? ? G1 _]; subst. destruct G1 as (_ & p & ps & Ep & _). cbn [flat_map] in E. rewrite Ep in E. discriminate.
  - exfalso. rewrite K in E. destruct rs as [|x rs]; [contradiction|]. inversion G as [|? ? G1 _]; subst. destruct G1 as (I & q & ps & Eq & (l & t & -> & El) & _).
    cbn [flat_map] in E. rewrite Eq in E. cbn [app] in E. injection E as <- _. destruct U as (l' & t' & E' & U). injection E' as <- <-. apply U. rewrite El. exact I.
Qed.

(** * Acts *)
Section acts.
Context (net : pystr -> res bytes) (miner : bytes -> res (list event)) (fixups : registry).
Let e := env_of net miner fixups.
Lemma act_read x c : law_of fixups x c -> reads e x Full (Ok (OAct c)).
Proof. intros (lines & F & L & _ & E1 & E2 & E3). exact (P_Law.C74_read e x c lines F eq_refl L E1 E2 E3). Qed.
Lemma Forall2_rev' {A B} (R : A -> B -> Prop) l l' : Forall2 R l l' -> Forall2 R (rev l) (rev l').
Proof. induction 1; cbn [rev]; [constructor|]. apply Forall2_app; [assumption|]. constructor; [assumption|constructor]. Qed.
Lemma issue_results i acts : served net miner fixups i acts -> results (hun_world e) [CAct] (ODownload (fst i) (snd i)) (map OAct (rev acts)).
Proof.
  intros (b & css & Nb & M & d & pages & laws & P & I & L). apply issue_read in I.
  apply (results_steps e Full); [exact Logic.I|]. exists (rev laws). split.
  - eapply rs_extract; [reflexivity|apply (extract_all e _ OFile (e_download e (fst i) (snd i))); [reflexivity|unfold e, env_of; cbn [e_download]; rewrite Nb; reflexivity]|].
    unfold e at 2, env_of. cbn [e_download]. rewrite Nb. cbn [one g_items map]. apply results_single.
    eapply rs_extract; [reflexivity|apply (extract_all e _ OPages (e_lines e (mk_pdf b (issue_cache_id (fst i) (snd i))))); [reflexivity|]|].
    + unfold e, env_of. cbn [e_lines pf_bytes]. rewrite (pages_read miner b css pages M P). reflexivity.
    + unfold e at 2, env_of. cbn [e_lines pf_bytes]. rewrite (pages_read miner b css pages M P). cbn [one g_items map]. apply results_single. exact (gazette_results e pages laws I).
  - apply Forall2_rev' in L. induction L as [|x c xs cs X _ IH]; [constructor|]. cbn [map]. constructor; [exact (act_read _ _ X)|exact IH].
Qed.
Lemma perm_rev_concat {A} (l : list (list A)) : Permutation (concat (rev (map (@rev A) l))) (concat l).
Proof.
  eapply Permutation_trans; [apply perm_concat, Permutation_sym, Permutation_rev|]. induction l as [|x l IH]; cbn [map concat]; [constructor|].
  apply Permutation_app; [apply Permutation_sym, Permutation_rev|exact IH].
Qed.
Theorem acts_read issues actss workers order : Forall2 (served net miner fixups) issues actss ->
  let objects := map (fun i => ODownload (fst i) (snd i)) issues in
  Permutation objects order -> exists fuel l, do_extraction (hun_world e) [CAct] fuel objects workers order = Some (mk_gen (map OAct l) None) /\ Permutation l (concat actss).
Proof.
  intros F objects P. assert (R : results_of (hun_world e) [CAct] objects (map OAct (concat (rev (map (@rev act) actss))))).
  { apply results_of_Forall2. exists (map (fun a => map OAct (rev a)) actss). split.
    - unfold objects. clear P. induction F as [|i acts issues actss S _ IH]; cbn [map]; constructor; [exact (issue_results _ _ S)|exact IH].
    - rewrite concat_map, map_rev, map_map. reflexivity. }
  apply do_work_results in R as (f & W).
  destruct (schedules (hun_world e) [CAct] objects 1 objects workers order f (map OAct (concat (rev (map (@rev act) actss)))) (Permutation_refl _) P) as (f' & l' & W' & Q).
  { exact W. }
  apply Permutation_sym, Permutation_map_inv in Q as (l & -> & Q). exists f', l. split; [exact W'|]. eapply Permutation_trans; [apply Permutation_sym; exact Q|apply perm_rev_concat].
Qed.
End acts.

(** * Files *)
Lemma parents_in a : forall b t, In (b ++ a) (path_parents b (a ++ 47%N :: t)).
Proof.
  induction a as [|c a IH]; intros b t; cbn [app path_parents]; apply in_or_app; [left; cbn; rewrite app_nil_r; auto|right].
  replace (b ++ c :: a) with ((b ++ [c]) ++ a) by (rewrite <- app_assoc; reflexivity). apply IH.
Qed.
Lemma drop_slashes_rev (x : pystr) : exists k, x = rev (drop_while (N.eqb 47) (rev x)) ++ repeat 47%N k.
Proof.
  assert (G : forall l : pystr, exists k, rev l = rev (drop_while (N.eqb 47) l) ++ repeat 47%N k); [|destruct (G (rev x)) as (k & K); exists k; now rewrite rev_involutive in K].
  clear x. induction l as [|c l IH]; [exists 0%nat; reflexivity|]. cbn [drop_while]. destruct (N.eqb 47 c) eqn:E.
  - apply N.eqb_eq in E. subst c. destruct IH as (k & IH). exists (S k). cbn [rev]. rewrite IH. rewrite <- app_assoc. f_equal. clear. induction k; [reflexivity|]. cbn [repeat app]. f_equal. exact IHk.
  - exists 0%nat. cbn [repeat]. now rewrite app_nil_r.
Qed.
Lemma dirname_join dir name : dir <> [] -> name <> [] -> ~ In 47%N name -> In (path_dirname (path_join dir name)) (dir :: path_parents [] dir).
Proof.
  intros D N S. assert (F : startswith (u8 "/") name = false).
  { destruct (startswith (u8 "/") name) eqn:E; [|reflexivity]. apply startswith_spec in E as (t & ->). destruct S. left. reflexivity. }
  assert (Q : forall p, path_dirname (p ++ name) = path_dirname p) by (intros p; apply dirname_suffix; exact S).
  unfold path_join. rewrite F. destruct dir as [|c0 d0] eqn:Ed using rev_ind; [contradiction|]. clear IHd0. rewrite rev_app_distr. cbn [rev app].
  destruct (N.eqb c0 47) eqn:E.
  - apply N.eqb_eq in E. subst c0. rewrite Q. unfold path_dirname. rewrite rev_app_distr. cbn [rev app drop_while N.eqb Pos.eqb negb].
    rewrite rev_involutive. destruct (forallb (N.eqb 47) (d0 ++ [47%N])) eqn:A; [left; reflexivity|right].
    destruct (drop_slashes_rev d0) as (k & K). rewrite rev_app_distr. cbn [rev app drop_while N.eqb Pos.eqb].
    set (u := rev (drop_while (N.eqb 47) (rev d0))) in *. rewrite K. replace ((u ++ repeat 47%N k) ++ [47%N]) with (u ++ 47%N :: repeat 47%N k); [apply (parents_in u [])|].
    rewrite <- app_assoc. f_equal. clear. induction k; [reflexivity|]. cbn [repeat app]. f_equal. exact IHk.
  - match goal with |- context [path_dirname ?x] => replace x with ((d0 ++ [c0; 47%N]) ++ name) by (rewrite <- !app_assoc; reflexivity) end. rewrite Q. left. unfold path_dirname.
    rewrite rev_app_distr. cbn [rev app drop_while N.eqb Pos.eqb negb]. rewrite rev_involutive, <- app_assoc. cbn [app].
    assert (A : forallb (N.eqb 47) (d0 ++ [c0; 47%N]) = false).
    { rewrite forallb_app. cbn [forallb]. rewrite (N.eqb_sym 47 c0), E. cbn. apply Bool.andb_false_r. }
    rewrite A, rev_app_distr. cbn [rev app drop_while]. rewrite N.eqb_refl, (N.eqb_sym 47 c0), E. cbn [rev]. now rewrite rev_involutive.
Qed.

Lemma join_longer dir name : ~ startswith (u8 "/") name = true -> (List.length dir + List.length name <= List.length (path_join dir name))%nat.
Proof.
  intros H. unfold path_join. destruct (startswith (u8 "/") name); [contradiction|]. rewrite <- (rev_involutive dir) at 1. destruct (rev dir) as [|c l] eqn:E; [cbn; lia|].
  rewrite <- E, rev_involutive. destruct (N.eqb c 47); rewrite !app_length; cbn [List.length]; lia.
Qed.
Lemma name_dot (i : pystr) t : i ++ u8 "." ++ t <> [].
Proof. destruct i; discriminate. Qed.
Lemma name_no_slash i f : ~ In 47%N i -> ~ In 47%N (i ++ u8 "." ++ format_name f).
Proof. intros H I. apply in_app_or in I as [I|I]; [exact (H I)|]. destruct f; vm_compute in I; intuition discriminate. Qed.

(* what can be written to a directory, where it is made first *)
Lemma can_be_written dir i f s : can_make s dir -> ~ In 47%N i -> let p := path_join dir (i ++ u8 "." ++ format_name f) in fs_dir s p = false ->
  can_write (add_dirs (dir :: path_parents [] dir) s) p.
Proof.
  intros [D _] S p P. pose proof (name_no_slash i f S) as NS. assert (F : ~ startswith (u8 "/") (i ++ u8 "." ++ format_name f) = true).
  { intros E. apply startswith_spec in E as (t & E). apply NS. rewrite E. left. reflexivity. }
  split.
  - cbn [add_dirs fs_dir]. rewrite P, Bool.orb_false_r. destruct (mem_str p (dir :: path_parents [] dir)) eqn:M; [|reflexivity]. exfalso.
    unfold mem_str in M. apply existsb_exists in M as (q & I & E). apply str_eqb_eq in E. subst q. pose proof (join_longer dir _ F) as L. fold p in L.
    assert (K : (0 < List.length (i ++ u8 "." ++ format_name f))%nat) by (rewrite app_length; cbn [List.length app]; lia).
    destruct I as [E|I]; [rewrite <- E in L; lia|]. apply parents_shorter in I. cbn [List.length plus] in I. lia.
  - right. cbn [add_dirs fs_dir]. apply Bool.orb_true_iff. left. apply existsb_exists. exists (path_dirname p). split; [|apply str_eqb_refl].
    apply dirname_join; [exact D|apply name_dot|exact NS].
Qed.
Theorem documents_written w a dir l s : splits (wr_wrapper w) -> ar_output_dir a = Some dir -> can_make (cs_fs s) dir ->
  Forall (fun o => ~ In 47%N (identifier_of (the_act o)) /\ fs_dir (cs_fs s) (path_join dir (identifier_of (the_act o) ++ u8 "." ++ format_name (ar_format a))) = false /\
                   exists r, output_fn w (ar_format a) (the_act o) = Ok r) l ->
  exists s', run_from w a (mk_gen l None) s = (s', None).
Proof.
  intros S D M F. unfold run_from. rewrite D. cbv zeta. rewrite makedirs_ok by exact M. cbn [o_res final o_states last g_items g_end].
  assert (K : Forall (step_ok w a dir (fs_dir (cs_fs (mk_cli (add_dirs (dir :: path_parents [] dir) (cs_fs s)) (cs_stdout s))))) l).
  { eapply Forall_impl; [|exact F]. intros o (N & P & R). right. cbn [cs_fs]. split; [|exact R]. apply can_write_test. exact (can_be_written dir _ _ _ M N P). }
  destruct (ok_all w a dir l S D _ K) as (s' & E). rewrite E. exists s'. reflexivity.
Qed.

Lemma served_kept net miner fixups i acts c : served net miner fixups i acts -> In c acts ->
  exists d v, to_dict hun_table (act_value c) (TClass (u8 "Act")) = Ok d /\ plain d /\ to_object hun_table d (TClass (u8 "Act")) = Ok v /\ py_eq hun_table (act_value c) v = true.
Proof.
  intros (b & css & _ & _ & d & pages & laws & _ & I & L) Ic. apply issue_read in I. apply P_Fit.C73_gazette in I. rewrite Forall_forall in I.
  assert (X : exists x, In x laws /\ law_of fixups x c).
  { clear I. induction L as [|x c' xs cs X _ IH]; [destruct Ic|]. destruct Ic as [->|Ic]; [exists x; split; [left; reflexivity|exact X]|]. destruct (IH Ic) as (y & Iy & Y). exists y. split; [right; exact Iy|exact Y]. }
  destruct X as (x & Ix & lines & F & W & M & _ & E & _). apply (P_Law.C74_kept c lines W); [|exact M]. rewrite E. exact (I x Ix).
Qed.
Lemma served_in {A B} (R : A -> list B -> Prop) l l' c : Forall2 R l l' -> In c (concat l') -> exists i x, R i x /\ In c x.
Proof.
  induction 1 as [|i x l l' X _ IH]; cbn [concat]; intros I; [destruct I|]. apply in_app_or in I as [I|I]; [exists i, x; auto|exact (IH I)].
Qed.
(* for any format in which all acts can be written *)
Theorem files_any net miner fixups w a dir actss order s (text : act -> pystr) (out : act -> pystr) : splits (wr_wrapper w) ->
  ar_step a = full -> ar_output_dir a = Some dir -> Forall2 (served net miner fixups) (ar_issues a) actss -> Permutation (issues_of a) order ->
  NoDup (map act_identifier (concat actss)) -> can_make (cs_fs s) dir ->
  (forall c, In c (concat actss) -> output_fn w (ar_format a) (OAct c) = Ok (text c, out c)) ->
  let target c := path_join dir (act_identifier c ++ u8 "." ++ format_name (ar_format a)) in
  (forall c, In c (concat actss) -> ~ In 47%N (act_identifier c) /\ fs_dir (cs_fs s) (target c) = false) ->
  exists fuel s', run (env_of net miner fixups) w a fuel order s = Some (s', None) /\ cs_stdout s' = cs_stdout s /\
    (forall c, In c (concat actss) -> asked a (act_identifier c) -> fs_file (cs_fs s') (target c) = Some (text c)) /\
    (forall p, (forall c, In c (concat actss) -> asked a (act_identifier c) -> p <> target c) -> fs_file (cs_fs s') p = fs_file (cs_fs s) p).
Proof.
  intros Sp St Di Se Pe Nd Cm Kept target Ok'. destruct (acts_read net miner fixups (ar_issues a) actss (ar_workers a) order Se Pe) as (fuel & l & Ex & Pl).
  assert (Il : forall c, In c l <-> In c (concat actss)) by (intros c; split; apply Permutation_in; [exact Pl|apply Permutation_sym; exact Pl]).
  destruct (documents_written w a dir (map OAct l) s Sp Di Cm) as (s' & R).
  { apply Forall_forall. intros o I. apply in_map_iff in I as (c & <- & I). apply Il in I. cbn [the_act identifier_of]. destruct (Ok' c I) as [O1 O2]. split; [exact O1|]. split; [exact O2|].
    eexists. exact (Kept c I). }
  exists fuel, s'. split; [unfold run, extracted_of, issues_of; rewrite St; cbn [output_class]; rewrite Ex; cbn [option_map]; rewrite R; reflexivity|].
  destruct (files_ok w a dir _ s s' Sp Di R) as (_ & O & A). cbn [g_items] in A. split; [exact O|].
  assert (Sh : forall o n p t, In o (map OAct l) -> shown w a dir n o p t -> exists c out, o = OAct c /\ In c (concat actss) /\ n = act_identifier c /\ p = target c /\ asked a n /\ output_fn w (ar_format a) (OAct c) = Ok (t, out)).
  { intros o n p t I H. apply in_map_iff in I as (c & <- & I). apply Il in I. inversion H as [o1 d t1 out' Do As R1 E1 E2 E3]; subst. inversion Do; subst. exists c, out'. split; [reflexivity|]. split; [exact I|]. auto. }
  assert (Inj : forall c c', In c (concat actss) -> In c' (concat actss) -> target c = target c' -> c = c').
  { intros c c' I I' E. apply (NoDup_map_inj act_identifier (concat actss)); auto. assert (F : forall x, In x (concat actss) -> no_slash_first (act_identifier x)) by (intros x Ix t Et; apply (proj1 (Ok' x Ix)); rewrite Et; left; reflexivity).
    exact (CliProofs.join_inj dir _ _ (format_name (ar_format a)) (F c I) (F c' I') E). }
  split.
  - intros c I As. pose proof (Kept c I) as K. specialize (A (target c)). inversion A as [l1 o n l2 t El H No Eb|No Eb].
    + destruct (Sh o n (target c) t) as (c' & out' & -> & I' & _ & Et & _ & R'); [rewrite El; apply in_elt|exact H|]. apply Inj in Et; auto. subst c'. f_equal. congruence.
    + exfalso. apply (No (OAct c) (act_identifier c) (text c)); [apply in_map, Il; exact I|]. exact (sh_intro w a dir (act_identifier c) (OAct c) (OAct c) (text c) (out c) (doc_act c) As K).
  - intros p Hp. specialize (A p). inversion A as [l1 o n l2 t El H No Eb|No Eb]; [|reflexivity]. exfalso.
    destruct (Sh o n p t) as (c' & out' & -> & I' & -> & Et & As & _); [rewrite El; apply in_elt|exact H|]. exact (Hp c' I' As Et).
Qed.
Theorem files_exact net miner fixups w a dir actss order s : splits (wr_wrapper w) ->
  ar_step a = full -> ar_format a = Json -> ar_output_dir a = Some dir -> Forall2 (served net miner fixups) (ar_issues a) actss -> Permutation (issues_of a) order ->
  NoDup (map act_identifier (concat actss)) -> can_make (cs_fs s) dir ->
  let target c := path_join dir (act_identifier c ++ u8 ".json") in
  (forall c, In c (concat actss) -> ~ In 47%N (act_identifier c) /\ fs_dir (cs_fs s) (target c) = false) ->
  exists fuel s', run (env_of net miner fixups) w a fuel order s = Some (s', None) /\ cs_stdout s' = cs_stdout s /\
    (forall c, In c (concat actss) -> asked a (act_identifier c) -> fs_file (cs_fs s') (target c) = Some (wr_dump w (JsonSpec.act_json c))) /\
    (forall p, (forall c, In c (concat actss) -> asked a (act_identifier c) -> p <> target c) -> fs_file (cs_fs s') p = fs_file (cs_fs s) p).
Proof.
  intros Sp St Fm Di Se Pe Nd Cm target Ok'. pose proof (files_any net miner fixups w a dir actss order s (fun c => wr_dump w (JsonSpec.act_json c)) (fun _ => []) Sp St Di Se Pe Nd Cm) as F.
  rewrite Fm in F. apply F; [|exact Ok']. intros c _. cbn [output_fn json_file]. rewrite JsonProofs.act_dump. reflexivity.
Qed.
Theorem files_written net miner fixups w load a dir actss order s : splits (wr_wrapper w) -> (forall d, plain d -> load (wr_dump w d) = Ok d) ->
  ar_step a = full -> ar_format a = Json -> ar_output_dir a = Some dir -> Forall2 (served net miner fixups) (ar_issues a) actss -> Permutation (issues_of a) order ->
  NoDup (map act_identifier (concat actss)) -> can_make (cs_fs s) dir ->
  let target c := path_join dir (act_identifier c ++ u8 ".json") in
  (forall c, In c (concat actss) -> ~ In 47%N (act_identifier c) /\ fs_dir (cs_fs s) (target c) = false) ->
  exists fuel s', run (env_of net miner fixups) w a fuel order s = Some (s', None) /\ cs_stdout s' = cs_stdout s /\
    (forall c, In c (concat actss) -> asked a (act_identifier c) -> exists t d v, fs_file (cs_fs s') (target c) = Some t /\ load t = Ok d /\
       to_object hun_table d (TClass (u8 "Act")) = Ok v /\ py_eq hun_table (act_value c) v = true) /\
    (forall p, (forall c, In c (concat actss) -> asked a (act_identifier c) -> p <> target c) -> fs_file (cs_fs s') p = fs_file (cs_fs s) p).
Proof.
  intros Sp Ld St Fm Di Se Pe Nd Cm target Ok'. destruct (files_exact net miner fixups w a dir actss order s Sp St Fm Di Se Pe Nd Cm Ok') as (fuel & s' & R & O & C & X).
  exists fuel, s'. split; [exact R|]. split; [exact O|]. split; [|exact X]. intros c I As.
  destruct (served_in _ _ _ c Se I) as (i & x & Sx & Ix). destruct (served_kept _ _ _ _ _ _ Sx Ix) as (d & v & D & P & V & E).
  rewrite JsonProofs.act_dump in D. injection D as <-. exists (wr_dump w (JsonSpec.act_json c)), (JsonSpec.act_json c), v. split; [exact (C c I As)|]. split; [exact (Ld _ P)|auto].
Qed.
