(* Proofs for RunSpec: a run with the cache goes step by step as one without it. *)
From Coq Require Import Lia.
From Verif Require Import PyBase PyBaseFacts IdModel LineModel TreeModel SemModel FixupModel PegModel PdfModel GazModel D2oModel D2oSpec D2oHun JsonSpec CacheModel CacheSpec CacheProofs ExtModel ExtSpec ExtProofs
  HtmlModel TxtModel TxtSpec PipeModel CliModel CliSpec CliProofs IssueProofs RunModel RunSpec RunProofs.
Local Open Scope Z_scope.

Section run.
Context (su : setup) (a : args) (e : env).
Hypothesis fixups_same : e_fixups e = su_fixups su.
Hypothesis analyzer_same : e_analyzer e = grammar_analyzer.
Hypothesis Codec : codec (su_write su) (su_read su).
Let cache := su_cache su.
Let J := ar_issues a.
Let W := hun_world e.
Let W' := hun_world (rest_env (su_fixups su)).
Let classes := [output_class (ar_step a)].

(** * Extractors that do not use files *)
Definition late (o : obj) : Prop := match o with ODownload _ _ | OFile _ => False | _ => True end.
Lemma late_extract o : late o -> extract_from W' o = extract_from W o.
Proof.
  intros L. destruct o; try destruct L; try reflexivity; unfold W, W', extract_from, hun_world; cbn [w_extractors w_class class_of extractors run_extractors];
    unfold to_structure_only, enrich_with_block_amendments, enrich_with_other_semantic_data, rest_env; cbn [e_fixups e_analyzer]; rewrite ?fixups_same, ?analyzer_same; reflexivity.
Qed.
Lemma late_single (o : obj) f os : run_extractors [f] o = Ok os -> Forall late (g_items (f o)) -> Forall late os.
Proof. cbn [run_extractors]. destruct (g_end (f o)); [discriminate|]. cbn [bind]. intros H F. injection H as <-. rewrite app_nil_r. exact F. Qed.
Lemma late_all {A} (f : A -> obj) l : (forall x, late (f x)) -> Forall late (map f l).
Proof. intros H. apply Forall_forall. intros o I. apply in_map_iff in I as (x & <- & _). apply H. Qed.
Lemma late_one {A} (f : A -> obj) r : (forall x, late (f x)) -> Forall late (g_items (one f r)).
Proof. intros H. destruct r; cbn [one g_items]; constructor; [apply H|constructor]. Qed.
Lemma late_out o os : late o -> extract_from W o = Ok os -> Forall late os.
Proof.
  intros L. destruct o; try destruct L; unfold W, extract_from, hun_world; cbn [w_extractors w_class class_of extractors]; [| | | | | |discriminate];
    intros H; (eapply late_single; [exact H|]); cbn [all_of g_items].
  - apply late_all. intros y. exact Logic.I.
  - apply late_all. intros y. exact Logic.I.
  - apply late_all. intros y. exact Logic.I.
  - apply late_one. intros y. exact Logic.I.
  - apply late_one. intros y. exact Logic.I.
  - apply late_one. intros y. exact Logic.I.
Qed.

(** * The cache *)
Record cached (f : fs) : Prop := mk_cached {
  ca_make : forall i, In i J -> can_make f (path_dirname (issue_path cache i));
  ca_issue : forall i, In i J -> fs_dir f (issue_path cache i) = false;
  ca_lines : forall i, In i J -> fs_dir f (lines_path cache i) = false;
  ca_agrees : forall i, In i J -> agrees su e f i
}.
(* what a step for an issue changes *)
Record frame (i : Z * Z) (f f' : fs) : Prop := mk_frame {
  fr_other : forall p, p <> issue_path cache i -> p <> lines_path cache i -> fs_file f' p = fs_file f p;
  fr_kept : forall p, fs_file f p <> None -> fs_file f' p = fs_file f p;
  fr_more : forall q, fs_dir f q = true -> fs_dir f' q = true;
  fr_dirs : forall q, fs_dir f' q = true -> fs_dir f q = true \/ In q (issue_dirs cache i)
}.
Lemma frame_refl i f : frame i f f.
Proof. constructor; auto. Qed.
Lemma agrees_same j f f' : fs_file f' (issue_path cache j) = fs_file f (issue_path cache j) -> fs_file f' (lines_path cache j) = fs_file f (lines_path cache j) ->
  fs_dir f' (issue_path cache j) = false -> fs_dir f' (lines_path cache j) = false ->
  (fs_dir f (path_dirname (issue_path cache j)) = true -> fs_dir f' (path_dirname (issue_path cache j)) = true) -> agrees su e f j -> agrees su e f' j.
Proof.
  intros E1 E2 D1 D2 D3 [x A N D|b pf A A' N D L C|b pf F A Di D L C|(b & t & pages & D & L & C & F & T & R)].
  - eapply ag_none; [split; [fold cache; rewrite E1; apply A|exact D1]|exact N|exact D].
  - eapply (ag_net su e f' j b); [split; [fold cache; rewrite E1; apply A|exact D1]|split; [fold cache; rewrite E2; apply A'|exact D2]|exact N|exact D|exact L|exact C].
  - eapply (ag_file su e f' j b); [fold cache; rewrite E1; exact F|split; [fold cache; rewrite E2; apply A|exact D2]|apply D3; exact Di|exact D|exact L|exact C].
  - apply ag_stored. exists b, t, pages. split; [exact D|]. split; [exact L|]. split; [exact C|]. split; [fold cache; rewrite E1; exact F|]. split; [fold cache; rewrite E2; exact T|exact R].
Qed.
Lemma stored_kept j f f' : (forall p, fs_file f p <> None -> cache_file cache J p -> fs_file f' p = fs_file f p) -> In j J -> stored su e f j -> stored su e f' j.
Proof.
  intros K I (b & t & pages & D & L & C & F & T & R). exists b, t, pages. split; [exact D|]. split; [exact L|]. split; [exact C|].
  split; [rewrite <- F; apply K; [rewrite F; discriminate|exists j; auto]|]. split; [rewrite <- T; apply K; [rewrite T; discriminate|exists j; auto]|exact R].
Qed.
Lemma frame_cached i f f' : frame i f f' -> agrees su e f' i -> cached f -> cached f'.
Proof.
  intros [O K M D] Ai [C1 C2 C3 C4]. assert (N1 : forall j, In j J -> fs_dir f' (issue_path cache j) = false).
  { intros j I. destruct (fs_dir f' (issue_path cache j)) eqn:E; [|reflexivity]. apply D in E as [E|E]; [rewrite C2 in E by exact I; discriminate|]. destruct (proj1 (file_no_dir cache j i _ E) eq_refl). }
  assert (N2 : forall j, In j J -> fs_dir f' (lines_path cache j) = false).
  { intros j I. destruct (fs_dir f' (lines_path cache j)) eqn:E; [|reflexivity]. apply D in E as [E|E]; [rewrite C3 in E by exact I; discriminate|]. destruct (proj2 (file_no_dir cache j i _ E) eq_refl). }
  constructor; [|exact N1|exact N2|].
  - intros j I. destruct (C1 j I) as [Ne F]. split; [exact Ne|]. rewrite Forall_forall in *. intros q Iq. pose proof (file_no_dir cache i j q Iq) as [Q1 Q2]. rewrite O by assumption. apply F. exact Iq.
  - intros j I. destruct (str_eqb (issue_path cache j) (issue_path cache i)) eqn:Ej; [apply str_eqb_eq, path_inj in Ej; subst; exact Ai|].
    assert (Nj : j <> i) by (intros ->; rewrite str_eqb_refl in Ej; discriminate).
    apply (agrees_same j f f'); [apply O|apply O|exact (N1 j I)|exact (N2 j I)|apply M|exact (C4 j I)].
    + intros X. apply path_inj in X. contradiction.
    + apply path_not_lines.
    + intros X. symmetry in X. exact (path_not_lines _ _ _ X).
    + intros X. apply lines_inj in X. contradiction.
Qed.
Lemma download_step f i : In i J -> cached f ->
  let o := download_issue (Some cache) (su_net su) (fst i) (snd i) f in let f' := final f o in
  frame i f f' /\ cached f' /\ o_urls o = (match fs_file f (issue_path cache i) with None => [issue_url i] | Some _ => [] end) /\
  ((exists x, e_download e (fst i) (snd i) = mk_gen [] (Some x) /\ o_res o = Err x) \/
   (exists b, let p := mk_pdf b (issue_cache_id (fst i) (snd i)) in e_download e (fst i) (snd i) = mk_gen [p] None /\ o_res o = Ok p /\ fs_file f' (issue_path cache i) = Some b)).
Proof.
  intros I C. pose proof (ca_agrees f C i I) as A. cbv zeta.
  assert (Again : forall b, fs_file f (issue_path cache i) = Some b -> e_download e (fst i) (snd i) = mk_gen [mk_pdf b (issue_cache_id (fst i) (snd i))] None ->
    let o := download_issue (Some cache) (su_net su) (fst i) (snd i) f in let f' := final f o in
    frame i f f' /\ cached f' /\ o_urls o = (match fs_file f (issue_path cache i) with None => [issue_url i] | Some _ => [] end) /\
    ((exists x, e_download e (fst i) (snd i) = mk_gen [] (Some x) /\ o_res o = Err x) \/
     (exists b, let p := mk_pdf b (issue_cache_id (fst i) (snd i)) in e_download e (fst i) (snd i) = mk_gen [p] None /\ o_res o = Ok p /\ fs_file f' (issue_path cache i) = Some b))).
  { intros b F D. cbv zeta. rewrite (download_again cache (fst i) (snd i) (su_net su) f b F). unfold final. cbn [o_states last o_urls o_res]. rewrite F.
    split; [apply frame_refl|]. split; [exact C|]. split; [reflexivity|]. right. exists b. auto. }
  destruct A as [x [A1 A2] N D|b pf Ab Ab' N D L Cl|b pf F Ab Di D L Cl|(b & t & pages & D & L & Cl & F & T & R)].
  - assert (E : download_issue (Some cache) (su_net su) (fst i) (snd i) f = mk_out [] [issue_url i] (Err x)).
    { unfold download_issue, io_bind, io_ret, cache_filename, cache_exists, io_exists, io_download. cbn [o_res o_states o_urls app final last]. change (path_join cache (issue_cache_id (fst i) (snd i))) with (issue_path cache i).
      fold cache in A1, A2. rewrite A1, A2. cbn [o_res o_states o_urls app]. unfold final. cbn [o_states last]. change (get_url (fst i) (snd i)) with (issue_url i). rewrite N. reflexivity. }
    rewrite E. unfold final. cbn [o_states last o_urls o_res]. fold cache in A1. rewrite A1. split; [apply frame_refl|]. split; [exact C|]. split; [reflexivity|]. left. exists x. auto.
  - fold cache in Ab, Ab'. pose proof (ca_make f C i I) as M. rewrite (download_first cache (fst i) (snd i) (su_net su) b f Ab M N). fold (issue_path cache i). set (s1 := add_dirs _ f).
    assert (Fi : final f (mk_out (s1 :: map (fun k => set_file (issue_path cache i) (firstn k b) s1) (seq 0 (S (List.length b)))) [get_url (fst i) (snd i)] (Ok (mk_pdf b (issue_cache_id (fst i) (snd i))))) = set_file (issue_path cache i) b s1).
    { unfold final. cbn [o_states]. transitivity (last (map (fun k => set_file (issue_path cache i) (firstn k b) s1) (seq 0 (S (List.length b)))) f); [reflexivity|]. rewrite last_map_seq. now rewrite firstn_all. }
    change (path_join cache (issue_cache_id (fst i) (snd i))) with (issue_path cache i). rewrite Fi. cbn [o_urls o_res]. rewrite (proj1 Ab).
    assert (Fr : frame i f (set_file (issue_path cache i) b s1)).
    { constructor.
      - intros p N1 N2. rewrite set_other by exact N1. reflexivity.
      - intros p Np. destruct (str_eqb p (issue_path cache i)) eqn:E; [apply str_eqb_eq in E; subst p; destruct Np; apply Ab|]. rewrite set_other; [reflexivity|]. intros ->. rewrite str_eqb_refl in E. discriminate.
      - intros q Q. cbn [set_file fs_dir]. unfold s1. cbn [add_dirs fs_dir]. rewrite Q. apply Bool.orb_true_r.
      - intros q Q. cbn [set_file fs_dir] in Q. unfold s1 in Q. cbn [add_dirs fs_dir] in Q. apply Bool.orb_true_iff in Q as [Q|Q]; [right|left; exact Q].
        unfold mem_str in Q. apply existsb_exists in Q as (r & Ir & Er). apply str_eqb_eq in Er. subst r. exact Ir. }
    split; [exact Fr|]. split.
    + apply (frame_cached i f); [exact Fr| |exact C]. eapply (ag_file su e _ i b); [apply set_same| | |exact D|exact L|exact Cl].
      * fold cache. split.
        -- rewrite set_other; [exact (proj1 Ab')|]. intros X. symmetry in X. exact (path_not_lines cache _ _ X).
        -- destruct (fs_dir _ (lines_path cache i)) eqn:E; [|reflexivity]. apply (fr_dirs _ _ _ Fr) in E as [E|E]; [destruct Ab'; congruence|]. destruct (proj2 (file_no_dir cache i i _ E) eq_refl).
      * cbn [set_file fs_dir]. unfold s1. cbn [add_dirs fs_dir]. apply Bool.orb_true_iff. left. unfold mem_str. cbn [existsb]. unfold cache. rewrite str_eqb_refl. reflexivity.
    + split; [reflexivity|]. right. exists b. split; [exact D|]. split; [reflexivity|apply set_same].
  - exact (Again b F D).
  - exact (Again b F D).
Qed.
Lemma lines_step f i b : In i J -> cached f -> let p := mk_pdf b (issue_cache_id (fst i) (snd i)) in
  fs_file f (issue_path cache i) = Some b -> e_download e (fst i) (snd i) = mk_gen [p] None ->
  let o := extract_with_files su (OFile p) f in let f' := final f o in
  frame i f f' /\ cached f' /\ o_urls o = [] /\
  ((exists x, e_lines e p = mk_gen [] (Some x) /\ o_res o = Err x) \/ (exists pages, e_lines e p = mk_gen [pages] None /\ o_res o = Ok [OPages pages] /\ stored su e f' i)).
Proof.
  intros I C p F D. pose proof (ca_agrees f C i I) as A. cbv zeta. unfold extract_with_files. fold cache.
  assert (Q : path_join cache (pf_cache_id p ++ u8 ".parsed_v5.gz") = lines_path cache i) by reflexivity.
  destruct A as [x [A1 A2] N D'|b' pf [Ab _] Ab' N D' L Cl|b' pf F' Ab Di D' L Cl|(b' & t & pages & D' & L & Cl & F' & T & R)].
  - fold cache in A1. congruence.
  - fold cache in Ab. congruence.
  - fold cache in F', Ab, Di. assert (b' = b) as -> by congruence. fold p in L. destruct (parse_pdf (su_miner su) b) as [pages|x] eqn:E.
    + specialize (Cl pages eq_refl). destruct (pages_kept pages Cl) as (Td & Pl & v & V & Pg).
      assert (Cw : can_write f (lines_path cache i)) by (split; [exact (ca_lines f C i I)|right; rewrite lines_dirname; exact Di]).
      pose proof (parser_first cache p (su_miner su) (su_write su) (su_read su) f pages (pages_json pages) Ab Cw E Td) as P. rewrite Q in P. unfold io_bind. rewrite P. cbn [o_res o_states o_urls app io_ret].
      rewrite (pages_self pages Cl), app_nil_r. unfold final. cbn [o_states o_res o_urls]. rewrite last_map_seq, firstn_all.
      assert (Fr : frame i f (set_file (lines_path cache i) (su_write su (pages_json pages)) f)).
      { constructor.
        - intros r N1 N2. apply set_other. exact N2.
        - intros r Nr. apply set_other. intros ->. apply Nr. apply Ab.
        - intros r H. exact H.
        - intros r H. left. exact H. }
      assert (St : stored su e (set_file (lines_path cache i) (su_write su (pages_json pages)) f) i).
      { exists b, (su_write su (pages_json pages)), pages. split; [exact D|]. split; [exact L|]. split; [exact Cl|].
        fold cache. split; [rewrite set_other by apply path_not_lines; exact F|]. split; [apply set_same|]. exact (proj1 (Codec _ Pl)). }
      split; [exact Fr|]. split; [apply (frame_cached i f); [exact Fr|apply ag_stored; exact St|exact C]|]. split; [reflexivity|]. right. exists pages. auto.
    + assert (P : cached_pdf_parser (Some cache) (su_miner su) (su_write su) (su_read su) p f = mk_out [] [] (Err x)).
      { unfold cached_pdf_parser, io_bind, io_ret, cache_filename, cache_exists, io_exists. cbn [o_res o_states o_urls app final last]. rewrite Q. destruct Ab as [A1 A2]. rewrite A1, A2. cbn [o_res o_states o_urls app final last].
        cbn [pf_bytes p]. unfold p. cbn [pf_bytes]. rewrite E. reflexivity. }
      unfold io_bind. rewrite P. cbn [o_res o_states o_urls]. unfold final. cbn [o_states last]. split; [apply frame_refl|]. split; [exact C|]. split; [reflexivity|]. left. exists x. split; [exact L|reflexivity].
  - fold cache in F', T. assert (b' = b) as -> by congruence. fold p in L. destruct (pages_kept pages Cl) as (Td & Pl & v & V & Pg).
    pose proof (parser_again cache p (su_miner su) (su_write su) (su_read su) f t) as P. rewrite Q in P. specialize (P T). rewrite R in P. cbn [bind] in P. rewrite V in P.
    unfold io_bind. rewrite P. cbn [o_res o_states o_urls app io_ret]. rewrite Pg. unfold final. cbn [o_states last o_urls o_res]. split; [apply frame_refl|]. split; [exact C|]. split; [reflexivity|]. right. exists pages.
    split; [exact L|]. split; [reflexivity|]. exists b, t, pages. auto 10.
Qed.

(** * Outputs *)
(* the same but for the cache *)
Record alike_but (sp sc : cli_state) : Prop := mk_alike_but {
  ab_stdout : cs_stdout sc = cs_stdout sp;
  ab_file : forall p, ~ cache_file cache J p -> fs_file (cs_fs sc) p = fs_file (cs_fs sp) p;
  ab_more : forall q, fs_dir (cs_fs sp) q = true -> fs_dir (cs_fs sc) q = true;
  ab_dirs : forall q, fs_dir (cs_fs sc) q = true -> fs_dir (cs_fs sp) q = true \/ cache_dir cache J q
}.
(* o can be written where the cache is not *)
Definition apart (D : pystr -> bool) (o : obj) : Prop := forall dir, ar_output_dir a = Some dir ->
  ~ cache_file cache J (target a dir o) /\ ~ cache_dir cache J (target a dir o) /\ (path_dirname (target a dir o) = [] \/ D (path_dirname (target a dir o)) = true).
Lemma cached_same f f' : (forall p, cache_file cache J p \/ cache_dir cache J p -> fs_file f' p = fs_file f p) -> fs_dir f' = fs_dir f -> cached f -> cached f'.
Proof.
  intros E D [C1 C2 C3 C4]. assert (E1 : forall j, In j J -> fs_file f' (issue_path cache j) = fs_file f (issue_path cache j)) by (intros j I; apply E; left; exists j; auto).
  assert (E2 : forall j, In j J -> fs_file f' (lines_path cache j) = fs_file f (lines_path cache j)) by (intros j I; apply E; left; exists j; auto). constructor.
  - intros j I. destruct (C1 j I) as [Ne F]. split; [exact Ne|]. rewrite Forall_forall in *. intros q Iq. rewrite E; [exact (F q Iq)|]. right. right. exists j. auto.
  - intros j I. rewrite D. auto.
  - intros j I. rewrite D. auto.
  - intros j I. apply (agrees_same j f f'); auto; rewrite D; auto.
Qed.
Lemma output_step sp sc o : alike_but sp sc -> cached (cs_fs sc) -> apart (fs_dir (cs_fs sp)) o ->
  let rp := output_one (su_writers su) a o sp in let rc := output_one (su_writers su) a o sc in
  snd rp = snd rc /\ alike_but (fst rp) (fst rc) /\ cached (cs_fs (fst rc)) /\ fs_dir (cs_fs (fst rp)) = fs_dir (cs_fs sp) /\
  (forall p, cache_file cache J p -> fs_file (cs_fs (fst rc)) p = fs_file (cs_fs sc) p).
Proof.
  intros A C Ap. cbv zeta. unfold output_one. destruct (skipped a (the_act o)).
  { cbn [fst snd]. split; [reflexivity|]. split; [exact A|]. split; [exact C|]. split; [reflexivity|]. reflexivity. }
  destruct (ar_output_dir a) as [dir|] eqn:Ed.
  - destruct (Ap dir Ed) as (N1 & N2 & Dn). change (file_path a dir (the_act o)) with (target a dir o). cbv zeta. set (p := target a dir o) in *.
    assert (T : forall D : pystr -> bool, (path_dirname p = [] \/ D (path_dirname p) = true) -> match path_dirname p with [] => true | _ :: _ => D (path_dirname p) end = true).
    { intros D [->|H]; [reflexivity|]. destruct (path_dirname p); [reflexivity|exact H]. }
    rewrite (T (fs_dir (cs_fs sp)) Dn). rewrite (T (fs_dir (cs_fs sc))) by (destruct Dn as [Dn|Dn]; [left; exact Dn|right; exact (ab_more _ _ A _ Dn)]). cbn [andb].
    assert (Ep : fs_dir (cs_fs sc) p = fs_dir (cs_fs sp) p).
    { destruct (fs_dir (cs_fs sc) p) eqn:X; destruct (fs_dir (cs_fs sp) p) eqn:Y; try reflexivity; [apply (ab_dirs _ _ A) in X as [X|X]; [congruence|contradiction]|]. apply (ab_more _ _ A) in Y. congruence. }
    rewrite Ep. destruct (fs_dir (cs_fs sp) p) eqn:Dp; cbn [negb].
    { cbn [fst snd]. split; [reflexivity|]. split; [exact A|]. split; [exact C|]. split; reflexivity. }
    assert (G : forall t out, let rp := mk_cli (set_file p t (cs_fs sp)) (cs_stdout sp ++ out) in let rc := mk_cli (set_file p t (cs_fs sc)) (cs_stdout sc ++ out) in
      alike_but rp rc /\ cached (cs_fs rc) /\ fs_dir (cs_fs rp) = fs_dir (cs_fs sp) /\ (forall q, cache_file cache J q -> fs_file (cs_fs rc) q = fs_file (cs_fs sc) q)).
    { intros t out. cbv zeta. cbn [cs_fs]. split; [|split; [|split; [reflexivity|]]].
      - destruct A as [A1 A2 A3 A4]. constructor; cbn [cs_fs cs_stdout].
        + rewrite A1. reflexivity.
        + intros q Q. cbn [set_file fs_file]. destruct (str_eqb q p); [reflexivity|exact (A2 q Q)].
        + exact A3.
        + exact A4.
      - apply (cached_same (cs_fs sc)); [|reflexivity|exact C]. intros q [Q|Q]; apply set_other; intros ->; contradiction.
      - intros q Q. apply set_other. intros ->. contradiction. }
    destruct (output_fn _ _ _) as [[t out]|x]; cbn [fst snd].
    + split; [reflexivity|]. exact (G t out).
    + split; [reflexivity|]. pose proof (G (wr_partial (su_writers su) (ar_format a) (the_act o)) []) as G'. cbv zeta in G'. rewrite !app_nil_r in G'. exact G'.
  - destruct A as [A1 A2 A3 A4]. destruct (output_fn _ _ _) as [[t out]|x]; cbn [fst snd cs_fs]; (split; [reflexivity|]); (split; [constructor; cbn [cs_fs cs_stdout]; auto; rewrite A1; reflexivity|]); (split; [exact C|]); split; reflexivity.
Qed.

(** * All of it *)
Definition then_end (r : cli_state * option exn) (e : option exn) : cli_state * option exn := match r with (s, None) => (s, e) | r => r end.
Definition known_obj (o : obj) : Prop := late o \/ exists i, In i J /\ o = ODownload (fst i) (snd i).
Definition is_stored (stack : list obj) (f : fs) (i : Z * Z) : Prop := In (ODownload (fst i) (snd i)) stack \/ stored su e f i.
Lemma no_result o : ~ late o -> is_result W' classes o = false /\ is_result W classes o = false.
Proof. intros L. destruct o; try (destruct L; exact Logic.I); unfold classes; destruct (ar_step a); split; reflexivity. Qed.
Lemma same_result o : is_result W' classes o = is_result W classes o.
Proof. reflexivity. Qed.
Lemma frame_alike i sp f f' : In i J -> alike_but sp f -> frame i (cs_fs f) f' -> alike_but sp (mk_cli f' (cs_stdout f)).
Proof.
  intros I [A1 A2 A3 A4] [O K M D]. constructor; cbn [cs_fs cs_stdout].
  - exact A1.
  - intros p N. rewrite O; [exact (A2 p N)| |]; intros ->; apply N; exists i; auto.
  - intros q Q. apply M, A3, Q.
  - intros q Q. apply D in Q as [Q|Q]; [exact (A4 q Q)|]. right. right. exists i. auto.
Qed.
Theorem works fuel : forall stack g sp sc u, Forall known_obj stack -> work W classes fuel stack = Some g -> alike_but sp sc -> cached (cs_fs sc) -> Forall (apart (fs_dir (cs_fs sp))) (g_items g) ->
  exists sc' l, let rp := then_end (output_all (su_writers su) a (g_items g) sp) (g_end g) in
    work_with_files su a fuel stack sc u = Some (sc', u ++ map issue_url l, snd rp) /\ alike_but (fst rp) sc' /\ cached (cs_fs sc') /\
    (forall p, fs_file (cs_fs sc) p <> None -> cache_file cache J p -> fs_file (cs_fs sc') p = fs_file (cs_fs sc) p) /\
    NoDup l /\ (forall i, In i l -> In i J /\ fs_file (cs_fs sc) (issue_path cache i) = None) /\
    (snd rp = None -> forall i, In i J -> is_stored stack (cs_fs sc) i -> stored su e (cs_fs sc') i) /\
    (snd rp = None -> forall i, In i J -> In (ODownload (fst i) (snd i)) stack -> fs_file (cs_fs sc) (issue_path cache i) = None -> In i l).
Proof.
  induction fuel as [fuel IH] using (well_founded_induction lt_wf). intros stack g sp sc u K Wk A C Ap. destruct fuel as [|n]; [discriminate|]. destruct stack as [|o rest].
  { cbn [work] in Wk. injection Wk as <-. exists sc, []. cbn [work_with_files g_items g_end output_all then_end fst snd map]. rewrite app_nil_r. split; [reflexivity|]. split; [exact A|]. split; [exact C|]. split; [reflexivity|].
    split; [constructor|]. split; [intros i []|]. split; [intros _ i _ [[]|H]; exact H|intros _ i _ []]. }
  inversion K as [|? ? Ko Kr]; subst. cbn [work] in Wk. destruct (is_result W classes o) eqn:Ro.
  - (* a result *)
    destruct (work W classes n rest) as [g'|] eqn:Wr; [|discriminate]. injection Wk as <-. cbn [g_items g_end] in *. inversion Ap as [|? ? Ap1 Ap2]; subst.
    destruct (output_step sp sc o A C Ap1) as (S1 & S2 & S3 & S4 & S5). cbn [work_with_files]. change (is_result (hun_world (rest_env (su_fixups su))) [output_class (ar_step a)] o) with (is_result W classes o). rewrite Ro.
    cbn [output_all]. destruct (output_one (su_writers su) a o sp) as [sp1 r1] eqn:E1. destruct (output_one (su_writers su) a o sc) as [sc1 r2] eqn:E2. cbn [fst snd] in *. subst r2. destruct r1 as [x|].
    + exists sc1, []. cbn [then_end fst snd map]. rewrite app_nil_r. split; [reflexivity|]. split; [exact S2|]. split; [exact S3|]. split; [intros p _ Q; exact (S5 p Q)|]. split; [constructor|]. split; [intros i []|]. split; discriminate.
    + rewrite <- S4 in Ap2. destruct (IH n ltac:(lia) rest g' sp1 sc1 u Kr Wr S2 S3 Ap2) as (sc' & l & R & A' & C' & Kp & Nd & Il & St & Un). exists sc', l. cbv zeta in *.
      split; [exact R|]. split; [exact A'|]. split; [exact C'|]. split; [intros p Np Q; rewrite <- (S5 p Q); apply Kp; [rewrite (S5 p Q); exact Np|exact Q]|]. split; [exact Nd|].
      split; [intros i I; destruct (Il i I) as [I1 I2]; split; [exact I1|]; rewrite <- I2; symmetry; apply S5; exists i; auto|]. split.
      * intros E i Ii [[H|H]|H]; [subst o; rewrite (proj2 (no_result (ODownload (fst i) (snd i)) (fun F => F))) in Ro; discriminate| |]; apply (St E i Ii); [left; exact H|right].
        apply (stored_kept i (cs_fs sc)); [intros p _ Q; exact (S5 p Q)|exact Ii|exact H].
      * intros E i Ii [H|H] Ab; [subst o; rewrite (proj2 (no_result (ODownload (fst i) (snd i)) (fun F => F))) in Ro; discriminate|]. apply (Un E i Ii H). rewrite <- Ab. apply S5. exists i. auto.
  - destruct Ko as [L|(i & Ii & ->)].
    + (* without files *)
      destruct (extract_from W o) as [os|x] eqn:Eo.
      * pose proof (late_out o os L Eo) as Lo. assert (K' : Forall known_obj (rev os ++ rest)).
        { apply Forall_app. split; [|exact Kr]. apply Forall_rev. eapply Forall_impl; [|exact Lo]. intros o' H. left. exact H. }
        destruct (IH n ltac:(lia) (rev os ++ rest) g sp sc u K' Wk A C Ap) as (sc' & l & R & A' & C' & Kp & Nd & Il & St & Un). exists sc', l. cbv zeta in *.
        assert (X : extract_with_files su o (cs_fs sc) = mk_out [] [] (Ok os)) by (rewrite <- Eo, <- late_extract by exact L; destruct o; try destruct L; reflexivity).
        cbn [work_with_files]. change (is_result (hun_world (rest_env (su_fixups su))) [output_class (ar_step a)] o) with (is_result W classes o). rewrite Ro, X. cbn [o_res o_urls]. rewrite app_nil_r.
        unfold final. cbn [o_states last]. replace (mk_cli (cs_fs sc) (cs_stdout sc)) with sc by (destruct sc; reflexivity).
        split; [exact R|]. split; [exact A'|]. split; [exact C'|]. split; [exact Kp|]. split; [exact Nd|]. split; [exact Il|]. split.
        -- intros E i Ii H. apply (St E i Ii). destruct H as [[H|H]|H]; [subst o; destruct L|left; apply in_or_app; right; exact H|right; exact H].
        -- intros E i Ii [H|H] Ab; [subst o; destruct L|]. apply (Un E i Ii); [apply in_or_app; right; exact H|exact Ab].
      * injection Wk as <-. exists sc, []. cbn [g_items g_end output_all then_end fst snd map]. rewrite app_nil_r.
        assert (X : extract_with_files su o (cs_fs sc) = mk_out [] [] (Err x)) by (rewrite <- Eo, <- late_extract by exact L; destruct o; try destruct L; reflexivity).
        cbn [work_with_files]. change (is_result (hun_world (rest_env (su_fixups su))) [output_class (ar_step a)] o) with (is_result W classes o). rewrite Ro, X. cbn [o_res o_urls]. rewrite app_nil_r.
        unfold final. cbn [o_states last]. replace (mk_cli (cs_fs sc) (cs_stdout sc)) with sc by (destruct sc; reflexivity).
        split; [reflexivity|]. split; [exact A|]. split; [exact C|]. split; [reflexivity|]. split; [constructor|]. split; [intros i []|]. split; discriminate.
    + (* an issue *)
      cbn [work_with_files]. change (is_result (hun_world (rest_env (su_fixups su))) [output_class (ar_step a)] (ODownload (fst i) (snd i))) with (is_result W classes (ODownload (fst i) (snd i))). rewrite Ro.
      destruct (download_step (cs_fs sc) i Ii C) as (Fr & C1 & Ur & Res).
      set (dl := download_issue (Some cache) (su_net su) (fst i) (snd i) (cs_fs sc)) in *. set (f1 := final (cs_fs sc) dl) in *.
      assert (Ex : extract_from W (ODownload (fst i) (snd i)) = match g_end (e_download e (fst i) (snd i)) with Some x => Err x | None => Ok (map OFile (g_items (e_download e (fst i) (snd i)))) end).
      { unfold W, extract_from, hun_world. cbn [w_extractors w_class class_of extractors run_extractors all_of g_end g_items]. destruct (g_end (e_download e (fst i) (snd i))); [reflexivity|]. cbn [bind]. rewrite app_nil_r. reflexivity. }
      destruct Res as [(x & De & Re)|(b & De & Re & Fb)].
      * rewrite De in Ex. cbn [g_end] in Ex. rewrite Ex in Wk. injection Wk as <-. 
        assert (X : extract_with_files su (ODownload (fst i) (snd i)) (cs_fs sc) = mk_out (o_states dl) (o_urls dl) (Err x)) by (unfold extract_with_files, io_bind; fold cache; fold dl; rewrite Re; reflexivity).
        rewrite X. cbn [o_res o_urls]. change (final (cs_fs sc) (mk_out (o_states dl) (o_urls dl) (Err x))) with f1.
        exists (mk_cli f1 (cs_stdout sc)), (match fs_file (cs_fs sc) (issue_path cache i) with None => [i] | Some _ => [] end). cbn [g_items g_end output_all then_end fst snd cs_fs].
        split; [rewrite Ur; destruct (fs_file (cs_fs sc) (issue_path cache i)); reflexivity|]. split; [exact (frame_alike i sp sc f1 Ii A Fr)|]. split; [exact C1|]. split; [intros p Np _; exact (fr_kept _ _ _ Fr p Np)|].
        split; [destruct (fs_file _ _); repeat constructor; intros []|]. split; [|split; discriminate].
        intros j I. destruct (fs_file (cs_fs sc) (issue_path cache i)) eqn:E; [destruct I|]. destruct I as [<-|[]]. auto.
      * cbv zeta in De, Re. rewrite De in Ex. cbn [g_end g_items map] in Ex. rewrite Ex in Wk. cbn [rev app] in Wk. set (p := mk_pdf b (issue_cache_id (fst i) (snd i))) in *. set (l1 := match fs_file (cs_fs sc) (issue_path cache i) with None => [i] | Some _ => [] end).
        assert (U1 : o_urls dl = map issue_url l1) by (rewrite Ur; unfold l1; destruct (fs_file _ _); reflexivity).
        assert (X : extract_with_files su (ODownload (fst i) (snd i)) (cs_fs sc) = mk_out (o_states dl) (map issue_url l1) (Ok [OFile p])) by (unfold extract_with_files, io_bind; fold cache; fold dl; rewrite Re, <- U1; cbn [io_ret o_states o_urls o_res]; rewrite !app_nil_r; reflexivity).
        rewrite X. cbn [o_res o_urls].
        change (final (cs_fs sc) (mk_out (o_states dl) (map issue_url l1) (Ok [OFile p]))) with f1. cbn [rev app].
        destruct n as [|n]; [discriminate|]. cbn [work] in Wk. rewrite (proj2 (no_result (OFile p) (fun F => F))) in Wk. cbn [work_with_files].
        change (is_result (hun_world (rest_env (su_fixups su))) [output_class (ar_step a)] (OFile p)) with (is_result W classes (OFile p)). rewrite (proj2 (no_result (OFile p) (fun F => F))). cbn [cs_fs cs_stdout].
        destruct (lines_step f1 i b Ii C1 Fb De) as (Fr2 & C2 & Ur2 & Res2). fold p in Fr2, C2, Ur2, Res2. set (ln := extract_with_files su (OFile p) f1) in *. set (f2 := final f1 ln) in *.
        assert (Ex2 : extract_from W (OFile p) = match g_end (e_lines e p) with Some x => Err x | None => Ok (map OPages (g_items (e_lines e p))) end).
        { unfold W, extract_from, hun_world. cbn [w_extractors w_class class_of extractors run_extractors all_of g_end g_items]. destruct (g_end (e_lines e p)); [reflexivity|]. cbn [bind]. rewrite app_nil_r. reflexivity. }
        assert (Kept : forall q, fs_file (cs_fs sc) q <> None -> fs_file f2 q = fs_file (cs_fs sc) q).
        { intros q Nq. rewrite (fr_kept _ _ _ Fr2); [exact (fr_kept _ _ _ Fr q Nq)|]. rewrite (fr_kept _ _ _ Fr q Nq). exact Nq. }
        assert (A2 : alike_but sp (mk_cli f2 (cs_stdout sc))) by (exact (frame_alike i sp (mk_cli f1 (cs_stdout sc)) f2 Ii (frame_alike i sp sc f1 Ii A Fr) Fr2)).
        assert (L1 : NoDup l1 /\ forall j, In j l1 -> In j J /\ fs_file (cs_fs sc) (issue_path cache j) = None).
        { unfold l1. destruct (fs_file (cs_fs sc) (issue_path cache i)) eqn:E; split; [constructor|intros j []|repeat constructor; intros []|]. intros j [<-|[]]. auto. }
        assert (Fb2 : fs_file f2 (issue_path cache i) = Some b) by (rewrite (fr_kept _ _ _ Fr2); [exact Fb|rewrite Fb; discriminate]).
        destruct Res2 as [(x & Le & Re2)|(pages & Le & Re2 & St2)].
        -- rewrite Le in Ex2. cbn [g_end] in Ex2. rewrite Ex2 in Wk. injection Wk as <-. rewrite Re2, Ur2, app_nil_r. exists (mk_cli f2 (cs_stdout sc)), l1. cbn [g_items g_end output_all then_end fst snd cs_fs].
           split; [reflexivity|]. split; [exact A2|]. split; [exact C2|]. split; [intros q Nq _; exact (Kept q Nq)|]. split; [apply L1|]. split; [apply L1|]. split; discriminate.
        -- rewrite Le in Ex2. cbn [g_end g_items map] in Ex2. rewrite Ex2 in Wk. cbn [rev app] in Wk. rewrite Re2, Ur2, app_nil_r. cbn [rev app].
           assert (K' : Forall known_obj (OPages pages :: rest)) by (constructor; [left; exact Logic.I|exact Kr]).
           destruct (IH n ltac:(lia) (OPages pages :: rest) g sp (mk_cli f2 (cs_stdout sc)) (u ++ map issue_url l1) K' Wk A2 C2 Ap) as (sc' & l & R & A' & C' & Kp & Nd & Il & St & Un). cbv zeta in *. cbn [cs_fs] in *.
           exists sc', (l1 ++ l). rewrite map_app, app_assoc. split; [exact R|]. split; [exact A'|]. split; [exact C'|].
           split; [intros q Nq Q; rewrite <- (Kept q Nq); apply Kp; [rewrite (Kept q Nq); exact Nq|exact Q]|].
           assert (Back : forall j, fs_file f2 (issue_path cache j) = None -> fs_file (cs_fs sc) (issue_path cache j) = None).
           { intros j E. destruct (fs_file (cs_fs sc) (issue_path cache j)) eqn:X9; [|reflexivity]. rewrite <- X9, <- E. symmetry. apply Kept. rewrite X9. discriminate. }
           split; [|split; [|split]].
           ++ unfold l1. destruct (fs_file (cs_fs sc) (issue_path cache i)); cbn [app]; [exact Nd|]. constructor; [|exact Nd]. intros I2. destruct (Il i I2) as [_ N2]. congruence.
           ++ intros j I. apply in_app_or in I as [I|I]; [apply L1; exact I|]. destruct (Il j I) as [I1 I2]. split; [exact I1|exact (Back j I2)].
           ++ intros E j Ij H. apply (St E j Ij). destruct (str_eqb (issue_path cache j) (issue_path cache i)) eqn:Ej; [apply str_eqb_eq, path_inj in Ej; subst j; right; exact St2|].
              assert (Nj : j <> i) by (intros ->; rewrite str_eqb_refl in Ej; discriminate).
              destruct H as [[H|H]|H]; [injection H as H1 H2; destruct i, j; cbn in *; congruence|left; right; exact H|right]. apply (stored_kept j (cs_fs sc)); [intros q Nq _; exact (Kept q Nq)|exact Ij|exact H].
           ++ intros E j Ij H Ab. apply in_or_app. destruct (str_eqb (issue_path cache j) (issue_path cache i)) eqn:Ej.
              ** apply str_eqb_eq, path_inj in Ej. subst j. left. unfold l1. rewrite Ab. left. reflexivity.
              ** assert (Nj : j <> i) by (intros ->; rewrite str_eqb_refl in Ej; discriminate). right. apply (Un E j Ij).
                 --- destruct H as [H|H]; [injection H as H1 H2; destruct i, j; cbn in *; congruence|right; exact H].
                 --- rewrite <- Ab. rewrite (fr_other _ _ _ Fr2); [apply (fr_other _ _ _ Fr)| |]; first [apply path_not_lines|intros X9; apply path_inj in X9; contradiction].
Qed.
End run.
