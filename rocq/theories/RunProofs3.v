(* Proofs for RunSpec: whole runs with the cache, the first one and later ones. *)
From Coq Require Import Lia Permutation.
From Verif Require Import PyBase PyBaseFacts IdModel LineModel TreeModel SemModel FixupModel PegModel PdfModel GazModel D2oModel D2oSpec D2oHun JsonSpec CacheModel CacheSpec CacheProofs ExtModel ExtSpec ExtProofs
  HtmlModel TxtModel TxtSpec PipeModel CliModel CliSpec CliProofs IssueSpec IssueProofs RunModel RunSpec RunProofs RunProofs2.
Local Open Scope Z_scope.

Lemma in_dirs p ps s : fs_dir (add_dirs ps s) p = true <-> In p ps \/ fs_dir s p = true.
Proof.
  cbn [add_dirs fs_dir]. rewrite Bool.orb_true_iff. unfold mem_str. rewrite existsb_exists. split; (intros [H|H]; [left|right; exact H]).
  - destruct H as (q & I & E). apply str_eqb_eq in E. subst q. exact I.
  - exists p. split; [exact H|apply str_eqb_refl].
Qed.
Lemma makedirs_cases d s : (can_make s d /\ io_makedirs d s = mk_out [add_dirs (above d) s] [] (Ok tt)) \/ (~ can_make s d /\ io_makedirs d s = mk_out [] [] (Err OSError)).
Proof.
  destruct (match d with [] => true | _ => false end || existsb (fun q => match fs_file s q with Some _ => true | None => false end) (d :: path_parents [] d))%bool eqn:E.
  - right. split; [|unfold io_makedirs; cbv zeta; rewrite E; reflexivity]. intros [N F]. apply Bool.orb_true_iff in E as [E|E]; [destruct d; [contradiction|discriminate]|].
    apply existsb_exists in E as (q & I & E). rewrite Forall_forall in F. rewrite (F q I) in E. discriminate.
  - left. assert (M : can_make s d); [|split; [exact M|exact (makedirs_ok d s M)]]. apply Bool.orb_false_iff in E as [E1 E2]. split; [destruct d; discriminate|]. apply Forall_forall. intros q I.
    destruct (fs_file s q) eqn:F; [|reflexivity]. exfalso. assert (X : existsb (fun q => match fs_file s q with Some _ => true | None => false end) (d :: path_parents [] d) = true); [|congruence].
    apply existsb_exists. exists q. rewrite F. auto.
Qed.
Lemma can_make_same f f' d : fs_file f' = fs_file f -> can_make f d -> can_make f' d.
Proof. intros E [N F]. split; [exact N|]. rewrite E. exact F. Qed.

(** * A run *)
Theorem run_ok su a e fuel g s s1 r : e_fixups e = su_fixups su -> e_analyzer e = grammar_analyzer -> codec (su_write su) (su_read su) ->
  do_work (hun_world e) [output_class (ar_step a)] fuel (issues_of a) = Some g -> run_from (su_writers su) a g s = (s1, r) ->
  (forall i, In i (ar_issues a) -> agrees su e (cs_fs s) i) -> room su a (cs_fs s) (g_items g) ->
  exists s' l, run_with_files su a fuel s = Some (s', map issue_url l, r) /\ alike_but su a s1 s' /\ cached su a e (cs_fs s') /\
    (forall p, fs_file (cs_fs s) p <> None -> cache_file (su_cache su) (ar_issues a) p -> fs_file (cs_fs s') p = fs_file (cs_fs s) p) /\
    NoDup l /\ (forall i, In i l -> In i (ar_issues a) /\ fs_file (cs_fs s) (issue_path (su_cache su) i) = None) /\
    (r = None -> forall i, In i (ar_issues a) -> stored su e (cs_fs s') i /\ (fs_file (cs_fs s) (issue_path (su_cache su) i) = None -> In i l)).
Proof.
  intros Fx An Co Wk Rf Ag [R1 R2 R3 R4]. unfold run_with_files, init_cache, io_bind. rewrite (makedirs_ok _ _ R1). cbn [o_res o_states o_urls io_ret app]. unfold final at 1. cbn [o_states last].
  fold (above (su_cache su)). set (f0 := add_dirs (above (su_cache su)) (cs_fs s)).
  unfold final at 1 2 3 4 5. cbn [o_states last cs_fs cs_stdout].
  assert (C0 : forall ds, (forall p, cache_file (su_cache su) (ar_issues a) p -> ~ In p ds) -> cached su a e (add_dirs ds f0)).
  { intros ds Nds. assert (D0 : forall p, cache_file (su_cache su) (ar_issues a) p -> fs_dir (add_dirs ds f0) p = false).
    { intros p P. destruct (fs_dir (add_dirs ds f0) p) eqn:E; [|reflexivity]. exfalso. apply in_dirs in E as [E|E]; [exact (Nds p P E)|]. apply in_dirs in E as [E|E]; [|rewrite (proj1 (R3 p P)) in E; discriminate].
      destruct P as (i & _ & [->| ->]); [exact (proj1 (file_not_above _ i _ E) eq_refl)|exact (proj2 (file_not_above _ i _ E) eq_refl)]. }
    constructor.
    - intros i I. apply (can_make_same (cs_fs s)); [reflexivity|exact (R2 i I)].
    - intros i I. apply D0. exists i. auto.
    - intros i I. apply D0. exists i. auto.
    - intros i I. apply (agrees_same su e i (cs_fs s)); [reflexivity|reflexivity|apply D0; exists i; auto|apply D0; exists i; auto| |exact (Ag i I)].
      intros H. apply in_dirs. right. apply in_dirs. right. exact H. }
  assert (K : Forall (known_obj a) (rev (issues_of a))).
  { apply Forall_rev. apply Forall_forall. intros o I. unfold issues_of in I. apply in_map_iff in I as (i & <- & I). right. exists i. auto. }
  assert (S0 : forall i, In i (ar_issues a) -> In (ODownload (fst i) (snd i)) (rev (issues_of a))).
  { intros i I. apply -> in_rev. unfold issues_of. apply in_map_iff. exists i. auto. }
  assert (Main : forall dsp, (forall p, cache_file (su_cache su) (ar_issues a) p -> ~ In p dsp) -> then_end (output_all (su_writers su) a (g_items g) (mk_cli (add_dirs dsp (cs_fs s)) (cs_stdout s))) (g_end g) = (s1, r) ->
    Forall (apart su a (fs_dir (add_dirs dsp (cs_fs s)))) (g_items g) ->
    exists s' l, work_with_files su a fuel (rev (issues_of a)) (mk_cli (add_dirs dsp f0) (cs_stdout s)) [] = Some (s', map issue_url l, r) /\ alike_but su a s1 s' /\ cached su a e (cs_fs s') /\
    (forall p, fs_file (cs_fs s) p <> None -> cache_file (su_cache su) (ar_issues a) p -> fs_file (cs_fs s') p = fs_file (cs_fs s) p) /\
    NoDup l /\ (forall i, In i l -> In i (ar_issues a) /\ fs_file (cs_fs s) (issue_path (su_cache su) i) = None) /\
    (r = None -> forall i, In i (ar_issues a) -> stored su e (cs_fs s') i /\ (fs_file (cs_fs s) (issue_path (su_cache su) i) = None -> In i l))).
  { intros dsp Nds Re Ap. assert (A0 : alike_but su a (mk_cli (add_dirs dsp (cs_fs s)) (cs_stdout s)) (mk_cli (add_dirs dsp f0) (cs_stdout s))).
    { constructor; cbn [cs_fs cs_stdout]; [reflexivity|reflexivity| |].
      - intros q Q. apply in_dirs in Q as [Q|Q]; apply in_dirs; [left; exact Q|right; apply in_dirs; right; exact Q].
      - intros q Q. apply in_dirs in Q as [Q|Q]; [left; apply in_dirs; left; exact Q|]. apply in_dirs in Q as [Q|Q]; [right; left; exact Q|left; apply in_dirs; right; exact Q]. }
    destruct (works su a e Fx An Co fuel (rev (issues_of a)) g _ _ [] K Wk A0 (C0 dsp Nds) Ap) as (s' & l & W & Al & Ca & Kp & Nd & Il & St & Un). cbv zeta in *. rewrite Re in *. cbn [fst snd cs_fs app] in *.
    exists s', l. split; [exact W|]. split; [exact Al|]. split; [exact Ca|]. split; [exact Kp|]. split; [exact Nd|]. split; [exact Il|].
    intros E i I. split; [apply (St E i I); left; apply S0; exact I|]. intros N. exact (Un E i I (S0 i I) N). }
  unfold run_from in Rf. destruct (ar_output_dir a) as [dir|] eqn:Ed.
  - cbv zeta in *. destruct (makedirs_cases dir (cs_fs s)) as [[M E]|[M E]]; rewrite E in Rf; cbn [o_res final o_states last] in Rf.
    + assert (M0 : can_make f0 dir) by (apply (can_make_same (cs_fs s)); [reflexivity|exact M]). rewrite (makedirs_ok dir f0 M0). cbn [o_res]. unfold final. cbn [o_states last]. fold (above dir).
      apply Main; [intros p P; exact (proj2 (R3 p P) dir eq_refl)|rewrite <- Rf; unfold then_end; destruct (output_all _ _ _ _) as [? [|]]; reflexivity|].
      apply Forall_forall. intros o Io dir' Ed'. assert (dir' = dir) as -> by congruence. destruct (R4 dir o eq_refl Io) as (N1 & N2 & N3). split; [exact N2|]. split; [exact N3|]. right. apply in_dirs. left.
      apply dirname_join; [exact (proj1 M)|apply name_dot|apply name_no_slash; exact N1].
    + injection Rf as <- <-. destruct (makedirs_cases dir f0) as [[M0 _]|[M0 E0]]; [destruct M; apply (can_make_same f0); [reflexivity|exact M0]|]. rewrite E0. cbn [o_res].
      exists (mk_cli f0 (cs_stdout s)), []. split; [reflexivity|]. cbn [cs_fs]. split.
      { constructor; cbn [cs_fs cs_stdout]; [reflexivity|reflexivity| |]; intros q Q; [apply in_dirs; right; exact Q|]. apply in_dirs in Q as [Q|Q]; [right; left; exact Q|left; exact Q]. }
      split; [pose proof (C0 [] (fun p _ H => H)) as C; apply (cached_same su a e (add_dirs [] f0)); [reflexivity|reflexivity|exact C]|]. split; [reflexivity|]. split; [constructor|]. split; [intros i []|discriminate].
  - cbv zeta in *. pose proof (Main [] (fun p _ H => H)) as Mn. assert (X : forall f, add_dirs [] f = f) by (intros [? ?]; reflexivity). rewrite !X in Mn. apply Mn.
    + rewrite <- Rf. unfold then_end. destruct (output_all _ _ _ _) as [? [|]]; reflexivity.
    + apply Forall_forall. intros o _ dir' E'. congruence.
Qed.

(** * Later runs *)
Lemma last_one {A} (P : A -> Prop) l1 x l2 l1' y l2' : l1 ++ x :: l2 = l1' ++ y :: l2' -> P x -> P y -> (forall z, In z l2 -> ~ P z) -> (forall z, In z l2' -> ~ P z) -> x = y.
Proof.
  revert l1'. induction l1 as [|c l1 IH]; intros [|c' l1'] E Px Py N N'; cbn [app] in E; injection E as E1 E2.
  - exact E1.
  - exfalso. apply (N y); [rewrite E2; apply in_elt|exact Py].
  - exfalso. apply (N' x); [rewrite <- E2; apply in_elt|exact Px].
  - exact (IH l1' E2 Px Py N N').
Qed.
Lemma after_again w a dir l p b c c' : file_after w a dir l p b c -> file_after w a dir l p c c' -> c' = c.
Proof.
  intros H H'. inversion H' as [l1' o' n' l2' t' El' Sh' No' Eb'|No' Eb']; [|reflexivity]. inversion H as [l1 o n l2 t El Sh No Eb|No Eb].
  - f_equal. assert (o' = o).
    { apply (last_one (fun o => exists n t, shown w a dir n o p t) l1' o' l2' l1 o l2); [congruence|eauto|eauto| |]; intros z I (m & u & Q); [exact (No' z m u I Q)|exact (No z m u I Q)]. }
    subst o'. symmetry. exact (proj2 (proj2 (shown_fun _ _ _ _ _ _ _ _ _ _ Sh Sh'))).
  - exfalso. apply (No o' n' t'); [rewrite El'; apply in_elt|exact Sh'].
Qed.
Lemma target_not_above dir i f : ~ In 47%N i -> ~ In (path_join dir (i ++ u8 "." ++ format_name f)) (above dir).
Proof.
  intros S I. pose proof (name_no_slash i f S) as NS. assert (F : ~ startswith (u8 "/") (i ++ u8 "." ++ format_name f) = true).
  { intros E. apply startswith_spec in E as (t & E). apply NS. rewrite E. left. reflexivity. }
  pose proof (join_longer dir _ F) as L. assert (K : (0 < List.length (i ++ u8 "." ++ format_name f))%nat) by (rewrite app_length; cbn [List.length app]; lia).
  destruct I as [E|I]; [rewrite <- E in L; lia|]. apply parents_shorter in I. cbn [List.length plus] in I. lia.
Qed.
Theorem again_ok su su' a e dir fuel g s s1 s' : e_fixups e = su_fixups su -> e_analyzer e = grammar_analyzer -> codec (su_write su) (su_read su) ->
  splits (wr_wrapper (su_writers su)) -> ar_output_dir a = Some dir -> same_disk su su' ->
  do_work (hun_world e) [output_class (ar_step a)] fuel (issues_of a) = Some g -> run_from (su_writers su) a g s = (s1, None) -> room su a (cs_fs s) (g_items g) ->
  alike_but su a s1 s' -> cached su a e (cs_fs s') -> (forall i, In i (ar_issues a) -> stored su e (cs_fs s') i) ->
  exists s'', run_with_files su' a fuel s' = Some (s'', [], None) /\ cs_stdout s'' = cs_stdout s' /\ forall p, fs_file (cs_fs s'') p = fs_file (cs_fs s') p.
Proof.
  intros Fx An Co Sp Di (S1 & S2 & S3 & S4 & S5) Wk Rf Rm Al Ca St. pose proof Rm as [R1 R2 R3 R4]. destruct (files_ok _ a dir g s s1 Sp Di Rf) as (Ge & Out & Aft).
  assert (Tg : forall o n p t, In o (g_items g) -> shown (su_writers su) a dir n o p t -> p = target a dir o).
  { intros o n p t I Sh. inversion Sh as [o1 d t1 out Do As Of]; subst. apply document_fun in Do as [-> ->]. reflexivity. }
  assert (Un : forall p, (forall o, In o (g_items g) -> p <> target a dir o) -> fs_file (cs_fs s1) p = fs_file (cs_fs s) p).
  { intros p N. specialize (Aft p). inversion Aft as [l1 o n l2 t El Sh No Eb|No Eb]; [|reflexivity]. exfalso. assert (Io : In o (g_items g)) by (rewrite El; apply in_elt). exact (N o Io (Tg o n p t Io Sh)). }
  assert (Free : forall p, ~ cache_file (su_cache su) (ar_issues a) p -> (forall o, In o (g_items g) -> p <> target a dir o) -> fs_file (cs_fs s) p = None -> fs_file (cs_fs s') p = None).
  { intros p N1 N2 E. rewrite (ab_file _ _ _ _ Al p N1), (Un p N2). exact E. }
  assert (Dirs : forall q, cache_dir (su_cache su) (ar_issues a) q -> fs_file (cs_fs s) q = None -> fs_file (cs_fs s') q = None).
  { intros q Q E. apply Free; [| |exact E].
    - intros (i & _ & [->| ->]); (destruct Q as [Q|(j & _ & Q)]; [first [exact (proj1 (file_not_above _ i _ Q) eq_refl)|exact (proj2 (file_not_above _ i _ Q) eq_refl)]|first [exact (proj1 (file_no_dir _ i j _ Q) eq_refl)|exact (proj2 (file_no_dir _ i j _ Q) eq_refl)]]).
    - intros o Io ->. exact (proj2 (proj2 (R4 dir o Di Io)) Q). }
  assert (Rm' : room su' a (cs_fs s') (g_items g)).
  { constructor; rewrite S1.
    - destruct R1 as [N F]. split; [exact N|]. rewrite Forall_forall in *. intros q Q. apply Dirs; [left; exact Q|exact (F q Q)].
    - intros i I. exact (ca_make _ _ _ _ Ca i I).
    - intros p P. split; [|exact (proj2 (R3 p P))]. destruct P as (i & I & [->| ->]); [exact (ca_issue _ _ _ _ Ca i I)|exact (ca_lines _ _ _ _ Ca i I)].
    - exact R4. }
  assert (St' : forall i, In i (ar_issues a) -> stored su' e (cs_fs s') i).
  { intros i I. destruct (St i I) as (b & t & pages & H). exists b, t, pages. rewrite S1, S3. exact H. }
  assert (Rf' : exists s2, run_from (su_writers su') a g s' = (s2, None)).
  { rewrite S5. unfold run_from in *. rewrite Di in Rf |- *. cbv zeta in Rf |- *. destruct (makedirs_cases dir (cs_fs s)) as [[M E]|[M E]]; rewrite E in Rf; cbn [o_res final o_states last] in Rf; [|discriminate].
    assert (M' : can_make (cs_fs s') dir).
    { destruct M as [N F]. split; [exact N|]. rewrite Forall_forall in *. intros q Q. apply Free; [| |exact (F q Q)].
      - intros P. exact (proj2 (R3 q P) dir Di Q).
      - intros o Io ->. exact (target_not_above dir _ _ (proj1 (R4 dir o Di Io)) Q). }
    rewrite (makedirs_ok dir _ M'). cbn [o_res]. unfold final. cbn [o_states last]. fold (above dir). destruct (output_all (su_writers su) a (g_items g) (mk_cli (add_dirs (above dir) (cs_fs s)) (cs_stdout s))) as [s1' [x|]] eqn:Oa; [discriminate|]. injection Rf as -> _.
    destruct (all_ok _ a dir _ Sp Di _ _ Oa) as (Ok1 & _ & Ds & _). cbn [cs_fs] in Ok1, Ds.
    destruct (ok_all (su_writers su) a dir (g_items g) Sp Di (mk_cli (add_dirs (above dir) (cs_fs s')) (cs_stdout s'))) as (s2 & E2); [|rewrite E2, Ge; eexists; reflexivity]. cbn [cs_fs].
    rewrite Forall_forall in *. intros o Io. destruct (Ok1 o Io) as [K|(C & Of)]; [left; exact K|right]. split; [|exact Of]. cbv zeta in *. change (file_path a dir (the_act o)) with (target a dir o) in *.
    apply (can_write_test (add_dirs (above dir) (cs_fs s)) (target a dir o)) in C as [C1 C2]. apply (can_write_test (add_dirs (above dir) (cs_fs s')) (target a dir o)). split.
    - destruct (fs_dir (add_dirs (above dir) (cs_fs s')) (target a dir o)) eqn:X; [|reflexivity]. apply in_dirs in X as [X|X]; [rewrite (proj2 (in_dirs _ _ (cs_fs s)) (or_introl X)) in C1; discriminate|].
      apply (ab_dirs _ _ _ _ Al) in X as [X|X]; [rewrite Ds in X; congruence|]. destruct (proj2 (proj2 (R4 dir o Di Io)) X).
    - destruct C2 as [C2|C2]; [left; exact C2|right]. apply in_dirs. right. apply (ab_more _ _ _ _ Al). rewrite Ds. exact C2. }
  destruct Rf' as (s2 & Rf').
  destruct (run_ok su' a e fuel g s' s2 None) as (s'' & l & W & Al2 & _ & Kp & _ & Il & _); [congruence|exact An|rewrite S2, S3; exact Co|exact Wk|exact Rf'|intros i I; apply ag_stored, St', I|exact Rm'|].
  assert (l = []) as ->. { destruct l as [|i l]; [reflexivity|]. destruct (Il i (or_introl eq_refl)) as [I N]. destruct (St' i I) as (b & t & pages & _ & _ & _ & F & _). congruence. }
  rewrite S5 in Rf'. destruct (files_ok _ a dir g s' s2 Sp Di Rf') as (_ & Out2 & Aft2). exists s''. split; [exact W|]. split; [rewrite (ab_stdout _ _ _ _ Al2); exact Out2|].
  intros p. destruct (fs_file (cs_fs s') p) eqn:Ep.
  - destruct (in_dec (list_eq_dec N.eq_dec) p (flat_map (fun i => [issue_path (su_cache su) i; lines_path (su_cache su) i]) (ar_issues a))) as [I|I].
    + rewrite <- Ep. apply Kp; [rewrite Ep; discriminate|]. apply in_flat_map in I as (i & I & [<-|[<-|[]]]); exists i; rewrite S1; auto.
    + assert (N : ~ cache_file (su_cache su) (ar_issues a) p). { intros (i & Ii & H). apply I. apply in_flat_map. exists i. split; [exact Ii|]. destruct H as [->| ->]; cbn; auto. }
      rewrite (ab_file _ _ _ _ Al2 p) by (rewrite S1; exact N). specialize (Aft p). specialize (Aft2 p). rewrite (ab_file _ _ _ _ Al p N) in Aft2. rewrite (after_again _ _ _ _ _ _ _ _ Aft Aft2), <- Ep. symmetry. exact (ab_file _ _ _ _ Al p N).
  - assert (N : ~ cache_file (su_cache su) (ar_issues a) p).
    { intros (i & Ii & [->| ->]); destruct (St i Ii) as (b & t & pages & _ & _ & _ & F & T & _); congruence. }
    rewrite (ab_file _ _ _ _ Al2 p) by (rewrite S1; exact N). specialize (Aft p). specialize (Aft2 p). rewrite (ab_file _ _ _ _ Al p N) in Aft2. rewrite (after_again _ _ _ _ _ _ _ _ Aft Aft2), <- Ep. symmetry. exact (ab_file _ _ _ _ Al p N).
Qed.

(** * One process *)
Lemma one_process_work e a fuel order : one_process a -> extracted_of e a fuel order = do_work (hun_world e) [output_class (ar_step a)] fuel (issues_of a).
Proof.
  intros H. unfold extracted_of, do_extraction. destruct ((1 <? ar_workers a) && (1 <? Z.of_nat (List.length (issues_of a))))%bool eqn:E; [|reflexivity]. exfalso.
  apply andb_prop in E as [E1 E2]. apply Z.ltb_lt in E1, E2. unfold issues_of in E2. rewrite map_length in E2. destruct H; lia.
Qed.

(** * Printed issues *)
Theorem printed_ok su su' a dir actss s : let e := env_of (su_net su) (su_miner su) (su_fixups su) in
  codec (su_write su) (su_read su) -> splits (wr_wrapper (su_writers su)) -> same_disk su su' ->
  ar_step a = full -> ar_format a = Json -> ar_output_dir a = Some dir -> one_process a -> Forall2 (served (su_net su) (su_miner su) (su_fixups su)) (ar_issues a) actss ->
  (forall b pages, parse_pdf (su_miner su) b = Ok pages -> clean_pages pages) ->
  NoDup (map act_identifier (concat actss)) -> can_make (cs_fs s) dir -> room su a (cs_fs s) (map OAct (concat actss)) ->
  (forall i, In i (ar_issues a) -> (absent (cs_fs s) (issue_path (su_cache su) i) /\ absent (cs_fs s) (lines_path (su_cache su) i)) \/ stored su e (cs_fs s) i) ->
  let target c := path_join dir (act_identifier c ++ u8 ".json") in
  (forall c, In c (concat actss) -> fs_dir (cs_fs s) (target c) = false) ->
  exists fuel s' l s'', run_with_files su a fuel s = Some (s', map issue_url l, None) /\ cs_stdout s' = cs_stdout s /\
    NoDup l /\ (forall i, In i l <-> In i (ar_issues a) /\ fs_file (cs_fs s) (issue_path (su_cache su) i) = None) /\
    (forall c, In c (concat actss) -> asked a (act_identifier c) -> fs_file (cs_fs s') (target c) = Some (wr_dump (su_writers su) (act_json c))) /\
    (forall p, (forall c, In c (concat actss) -> asked a (act_identifier c) -> p <> target c) -> ~ cache_file (su_cache su) (ar_issues a) p -> fs_file (cs_fs s') p = fs_file (cs_fs s) p) /\
    run_with_files su' a fuel s' = Some (s'', [], None) /\ cs_stdout s'' = cs_stdout s' /\ (forall p, fs_file (cs_fs s'') p = fs_file (cs_fs s') p).
Proof.
  intros e Co Sp Sd St Fm Di Op Se Cl Nd Cm Rm Fresh target' Td.
  destruct (files_exact (su_net su) (su_miner su) (su_fixups su) (su_writers su) a dir actss (issues_of a) s Sp St Fm Di Se (Permutation_refl _) Nd Cm) as (fuel & s1 & R & Out & Fw & Fk).
  { intros c I. split; [|exact (Td c I)]. exact (proj1 (rm_output _ _ _ _ Rm dir (OAct c) Di (in_map OAct _ _ I))). }
  unfold run in R. fold e in R. destruct (extracted_of e a fuel (issues_of a)) as [g|] eqn:Eg; [|discriminate]. cbn [option_map] in R. injection R as R.
  rewrite (one_process_work e a fuel (issues_of a) Op) in Eg.
  destruct (acts_read (su_net su) (su_miner su) (su_fixups su) (ar_issues a) actss 1 (issues_of a) Se (Permutation_refl _)) as (fuel2 & l2 & W2 & P2). fold e in W2.
  assert (Ig : forall o, In o (g_items g) -> In o (map OAct (concat actss))).
  { unfold do_extraction in W2. cbn [Z.ltb Z.compare Pos.compare Pos.compare_cont andb] in W2. rewrite St in Eg. cbn [output_class] in Eg. unfold do_work in *. pose proof (work_det _ _ _ _ _ _ _ Eg W2) as ->. cbn [g_items].
    intros o I. apply in_map_iff in I as (c & <- & I). apply in_map. exact (Permutation_in _ P2 I). }
  assert (Rm' : room su a (cs_fs s) (g_items g)) by (destruct Rm as [R1 R2 R3 R4]; constructor; auto).
  assert (Ag : forall i, In i (ar_issues a) -> agrees su e (cs_fs s) i).
  { intros i I. destruct (Fresh i I) as [[A1 A2]|H]; [|apply ag_stored; exact H].
    assert (Sv : exists b, su_net su (issue_url i) = Ok b).
    { clear - Se I. induction Se as [|j acts js accts (b & css & N & _) _ IH]; [destruct I|]. destruct I as [<-|I]; [exists b; exact N|exact (IH I)]. }
    destruct Sv as (b & N). apply (ag_net su e (cs_fs s) i b A1 A2 N).
    - unfold e, env_of. cbn [e_download]. change (get_url (fst i) (snd i)) with (issue_url i). rewrite N. reflexivity.
    - reflexivity.
    - intros pages. apply Cl. }
  destruct (run_ok su a e fuel g s s1 None eq_refl eq_refl Co Eg R Ag Rm') as (s' & l & W & Al & Ca & Kp & Ndl & Il & Sl).
  destruct (again_ok su su' a e dir fuel g s s1 s' eq_refl eq_refl Co Sp Di Sd Eg R Rm' Al Ca (fun i I => proj1 (Sl eq_refl i I))) as (s'' & W' & O' & F').
  exists fuel, s', l, s''. split; [exact W|]. split; [rewrite (ab_stdout _ _ _ _ Al); exact Out|]. split; [exact Ndl|]. split; [intros i; split; [apply Il|intros [I N]; exact (proj2 (Sl eq_refl i I) N)]|].
  split; [|split; [|auto]].
  - intros c I As. rewrite (ab_file _ _ _ _ Al); [exact (Fw c I As)|]. destruct (rm_output _ _ _ _ Rm dir (OAct c) Di (in_map OAct _ _ I)) as (_ & N & _). unfold target in N. rewrite Fm in N. exact N.
  - intros p N1 N2. rewrite (ab_file _ _ _ _ Al p N2). exact (Fk p N1).
Qed.
