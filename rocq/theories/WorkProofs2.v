(* Proofs for WorkSpec: workers come to an end, and what they have then. *)
From Coq Require Import Lia.
From Verif Require Import PyBase PyBaseFacts IdModel LineModel TreeModel SemModel FixupModel PegModel PdfModel GazModel D2oModel D2oSpec D2oHun JsonSpec CacheModel CacheSpec CacheProofs ExtModel ExtSpec ExtProofs
  PipeModel CliModel CliSpec RunModel RunSpec RunProofs RunProofs2 WorkModel WorkSpec WorkProofs.
Local Open Scope Z_scope.

(** * The end *)
Section ends.
Context (su : setup).
Ltac next H := destruct H as (_ & i & s & s' & u & H); unfold worker_step in H; cbv zeta in H; apply (f_equal (fun x => fst (fst x))) in H.
Lemma ends_finished r : Acc (comes_to su) (Finished r).
Proof. constructor. intros ph [N _]. destruct (N r eq_refl). Qed.
Lemma ends_load : Acc (comes_to su) AtLoad.
Proof. constructor. intros ph H. next H. cbn [fst] in H. subst ph. apply ends_finished. Qed.
Lemma ends_writing_lines x pages n : forall k, (List.length (su_write su x) - k <= n)%nat -> Acc (comes_to su) (WritingLines x pages k).
Proof.
  induction n as [|n IH]; intros k L; constructor; intros ph H; next H; destruct (nth_error (su_write su x) k) eqn:E; cbn [fst] in H; subst ph; try apply ends_finished;
    (assert (K : (k < List.length (su_write su x))%nat) by (apply nth_error_Some; rewrite E; discriminate)); [lia|]. apply IH. lia.
Qed.
Lemma ends_lines_open x pages : Acc (comes_to su) (AtLinesOpen x pages).
Proof. constructor. intros ph H. next H. destruct (can_open _ _); cbn [fst] in H; subst ph; [|apply ends_finished]. eapply ends_writing_lines. apply le_n. Qed.
Lemma ends_parse b : Acc (comes_to su) (AtParse b).
Proof. constructor. intros ph H. next H. cbn [fst] in H. destruct (bind _ _) as [[x pages]|x]; subst ph; [apply ends_lines_open|apply ends_finished]. Qed.
Lemma ends_lines b : Acc (comes_to su) (AtLines b).
Proof. constructor. intros ph H. next H. cbn [fst] in H. destruct (is_there _ _); subst ph; [apply ends_load|apply ends_parse]. Qed.
Lemma ends_file : Acc (comes_to su) AtFile.
Proof. constructor. intros ph H. next H. cbn [fst] in H. destruct (fs_file _ _); subst ph; [apply ends_lines|apply ends_finished]. Qed.
Lemma ends_writing b n : forall k, (List.length b - k <= n)%nat -> Acc (comes_to su) (Writing b k).
Proof.
  induction n as [|n IH]; intros k L; constructor; intros ph H; next H; destruct (nth_error b k) eqn:E; cbn [fst] in H; subst ph; try exact ends_file;
    (assert (K : (k < List.length b)%nat) by (apply nth_error_Some; rewrite E; discriminate)); [lia|]. apply IH. lia.
Qed.
Lemma ends_open b : Acc (comes_to su) (AtOpen b).
Proof. constructor. intros ph H. next H. destruct (can_open _ _); cbn [fst] in H; subst ph; [|apply ends_finished]. eapply ends_writing. apply le_n. Qed.
Lemma ends_dirs b : Acc (comes_to su) (AtDirs b).
Proof. constructor. intros ph H. next H. cbn [fst] in H. destruct (o_res _); subst ph; [apply ends_open|apply ends_finished]. Qed.
Lemma ends_net : Acc (comes_to su) AtNet.
Proof. constructor. intros ph H. next H. cbn [fst] in H. destruct (su_net _ _); subst ph; [apply ends_dirs|apply ends_finished]. Qed.
Lemma ends_start : Acc (comes_to su) AtStart.
Proof. constructor. intros ph H. next H. cbn [fst] in H. destruct (is_there _ _); subst ph; [apply ends_file|apply ends_net]. Qed.
Lemma ends_all : well_founded (comes_to su).
Proof.
  intros []; [apply ends_start|apply ends_net|apply ends_dirs|apply ends_open|eapply ends_writing; apply le_n|apply ends_file|apply ends_lines|apply ends_load|apply ends_parse|apply ends_lines_open|eapply ends_writing_lines; apply le_n|apply ends_finished].
Qed.
Lemma reaches_trans issues a b c : reaches su issues a b -> reaches su issues b c -> reaches su issues a c.
Proof. intros H. induction 1; [exact H|]. eapply re_next; eassumption. Qed.
Lemma finish_one issues i l r : forall ph s urls, exists x s' urls', reaches su issues (mk_system s (l ++ (i, ph) :: r) urls) (mk_system s' (l ++ (i, Finished x) :: r) urls').
Proof.
  intros ph. induction (ends_all ph) as [ph _ IH]. intros s urls. assert (D : (exists x, ph = Finished x) \/ forall x, ph <> Finished x) by (destruct ph; try (right; discriminate); left; eexists; reflexivity).
  destruct D as [[x ->]|N]; [exists x, s, urls; apply re_start|]. destruct (worker_step su i ph s) as [[ph' s'] u] eqn:E.
  destruct (IH ph' (conj N (ex_intro _ i (ex_intro _ s (ex_intro _ s' (ex_intro _ u E))))) s' (urls ++ u)) as (x & s'' & urls' & R). exists x, s'', urls'.
  eapply reaches_trans; [|exact R]. eapply re_next; [apply re_start|]. apply mv_worker. exact E.
Qed.
Lemma finish_all issues r : forall l s urls, (forall w, In w l -> exists x, snd w = Finished x) ->
  exists sy, reaches su issues (mk_system s (l ++ r) urls) sy /\ forall w, In w (sy_workers sy) -> exists x, snd w = Finished x.
Proof.
  induction r as [|[i ph] r IH]; intros l s urls F.
  - rewrite app_nil_r. eexists. split; [apply re_start|]. exact F.
  - destruct (finish_one issues i l r ph s urls) as (x & s' & urls' & R). destruct (IH (l ++ [(i, Finished x)]) s' urls') as (sy & R' & F').
    + intros w I. apply in_app_or in I as [I|[<-|[]]]; [exact (F w I)|]. exists x. reflexivity.
    + rewrite <- app_assoc in R'. cbn [app] in R'. exists sy. split; [exact (reaches_trans _ _ _ _ R R')|exact F'].
Qed.
End ends.

(** * The rest of the work *)
Section rest.
Context (su : setup) (a : args) (e : env).
Hypothesis fixups_same : e_fixups e = su_fixups su.
Hypothesis analyzer_same : e_analyzer e = grammar_analyzer.
Let classes := [output_class (ar_step a)].
Lemma work_late fuel : forall stack, Forall late stack -> work (hun_world (rest_env (su_fixups su))) classes fuel stack = work (hun_world e) classes fuel stack.
Proof.
  induction fuel as [|n IH]; intros stack F; [reflexivity|]. cbn [work]. destruct stack as [|o rest]; [reflexivity|]. inversion F as [|? ? L F']; subst.
  change (is_result (hun_world (rest_env (su_fixups su))) classes o) with (is_result (hun_world e) classes o). destruct (is_result _ _ o); [rewrite IH by exact F'; reflexivity|].
  rewrite (late_extract su e fixups_same analyzer_same o L). destruct (extract_from (hun_world e) o) as [os|x] eqn:E; [|reflexivity]. apply IH. apply Forall_app. split; [|exact F']. apply Forall_rev. exact (late_out e o os L E).
Qed.
Lemma not_result y i f : is_result (hun_world e) classes (ODownload y i) = false /\ is_result (hun_world e) classes (OFile f) = false.
Proof. unfold classes, output_class. destruct (ar_step a); split; reflexivity. Qed.
Lemma extract_download y i : extract_from (hun_world e) (ODownload y i) = match g_end (e_download e y i) with Some x => Err x | None => Ok (map OFile (g_items (e_download e y i))) end.
Proof. unfold extract_from, hun_world. cbn [w_extractors w_class class_of extractors run_extractors]. unfold all_of. cbn [g_end g_items]. destruct (g_end _); [reflexivity|]. cbn [bind]. now rewrite app_nil_r. Qed.
Lemma extract_file f : extract_from (hun_world e) (OFile f) = match g_end (e_lines e f) with Some x => Err x | None => Ok (map OPages (g_items (e_lines e f))) end.
Proof. unfold extract_from, hun_world. cbn [w_extractors w_class class_of extractors run_extractors]. unfold all_of. cbn [g_end g_items]. destruct (g_end _); [reflexivity|]. cbn [bind]. now rewrite app_nil_r. Qed.
Lemma result_job fuel i r : told e i r -> worker_result su classes fuel r = job (hun_world e) classes (S (S fuel)) (ODownload (fst i) (snd i)).
Proof.
  intros T. unfold job, do_work. cbn [rev app]. set (m := S fuel). cbn [work]. rewrite (proj1 (not_result _ _ (mk_pdf [] []))), extract_download. destruct T as [(x & D & ->)|(f & D & T)]; rewrite D; cbn [g_end g_items map rev app]; [reflexivity|].
  unfold m. cbn [work]. rewrite (proj2 (not_result 0 0 f)), extract_file. destruct T as [(x & L & ->)|(pages & L & ->)]; rewrite L; cbn [g_end g_items map rev app]; [reflexivity|].
  unfold worker_result, job, do_work. cbn [rev app]. rewrite work_late; [reflexivity|]. constructor; [exact Logic.I|constructor].
Qed.
End rest.

(** * No one in between *)
Section alone.
Context (su : setup) (i : Z * Z).
Let cache := su_cache su.
Lemma alone_trans ph1 s1 u1 ph2 s2 u2 ph3 s3 : alone su i ph1 s1 u1 ph2 s2 -> alone su i ph2 s2 u2 ph3 s3 -> alone su i ph1 s1 (u1 ++ u2) ph3 s3.
Proof. intros H X. induction H as [ph s|ph s ph1 s1 u urls ph2 s2 E _ IH]; [exact X|]. rewrite <- app_assoc. eapply al_next; [exact E|]. exact (IH X). Qed.
Lemma alone_one ph s ph' s' u : worker_step su i ph s = (ph', s', u) -> alone su i ph s u ph' s'.
Proof. intros H. rewrite <- (app_nil_r u). eapply al_next; [exact H|apply al_end]. Qed.
Lemma same_refl s : same_fs s s.
Proof. split; reflexivity. Qed.
Lemma same_trans a b c : same_fs a b -> same_fs b c -> same_fs a c.
Proof. intros [F D] [F' D']. split; intros p; [rewrite F'; apply F|rewrite D'; apply D]. Qed.
Lemma same_set p b s s' : same_fs s s' -> same_fs (set_file p b s) (set_file p b s').
Proof. intros [F D]. split; intros q; cbn [set_file fs_file fs_dir]; [destruct (str_eqb q p); [reflexivity|apply F]|apply D]. Qed.
Lemma set_twice p b b' s : same_fs (set_file p b s) (set_file p b (set_file p b' s)).
Proof. split; intros q; cbn [set_file fs_file fs_dir]; [|reflexivity]. destruct (str_eqb q p); reflexivity. Qed.
Lemma writing_loop data n : forall k s, (List.length data - k <= n)%nat -> (k <= List.length data)%nat -> fs_file s (issue_path cache i) = Some (firstn k data) ->
  exists t, alone su i (Writing data k) s [] AtFile t /\ same_fs (set_file (issue_path cache i) data s) t.
Proof.
  assert (Last : forall k s, (k <= List.length data)%nat -> fs_file s (issue_path cache i) = Some (firstn k data) -> nth_error data k = None ->
    exists t, alone su i (Writing data k) s [] AtFile t /\ same_fs (set_file (issue_path cache i) data s) t).
  { intros k s K F E. exists s. split; [apply alone_one; unfold worker_step; cbv zeta; rewrite E; reflexivity|]. rewrite (done_all _ _ K E) in F. split; intros q; cbn [set_file fs_file fs_dir]; [|reflexivity].
    destruct (str_eqb q (issue_path cache i)) eqn:Eq; [|reflexivity]. apply str_eqb_eq in Eq. subst q. exact F. }
  induction n as [|n IH]; intros k s L K F.
  - apply (Last k s K F). apply nth_error_None. lia.
  - destruct (nth_error data k) as [c|] eqn:E; [|exact (Last k s K F E)]. destruct (IH (S k) (write_at (issue_path cache i) k c s)) as (t & A & Sm).
    + apply next_le in E. lia.
    + exact (next_le _ _ _ E).
    + unfold write_at. rewrite F, (put_next _ _ _ E). apply set_same.
    + exists t. split; [|eapply same_trans; [apply set_twice|exact Sm]]. change (@nil pystr) with ([] ++ @nil pystr). eapply al_next; [|exact A]. unfold worker_step. cbv zeta. rewrite E. reflexivity.
Qed.
Lemma writing_lines_loop x pages n : forall k s, (List.length (su_write su x) - k <= n)%nat -> (k <= List.length (su_write su x))%nat -> fs_file s (lines_path cache i) = Some (firstn k (su_write su x)) ->
  exists t, alone su i (WritingLines x pages k) s [] (Finished (no_pages (pages_of (pdf_value pages)))) t /\ same_fs (set_file (lines_path cache i) (su_write su x) s) t.
Proof.
  set (data := su_write su x).
  assert (Last : forall k s, (k <= List.length data)%nat -> fs_file s (lines_path cache i) = Some (firstn k data) -> nth_error data k = None ->
    exists t, alone su i (WritingLines x pages k) s [] (Finished (no_pages (pages_of (pdf_value pages)))) t /\ same_fs (set_file (lines_path cache i) data s) t).
  { intros k s K F E. exists s. split; [apply alone_one; unfold worker_step; cbv zeta; fold data; rewrite E; reflexivity|]. rewrite (done_all _ _ K E) in F. split; intros q; cbn [set_file fs_file fs_dir]; [|reflexivity].
    destruct (str_eqb q (lines_path cache i)) eqn:Eq; [|reflexivity]. apply str_eqb_eq in Eq. subst q. exact F. }
  induction n as [|n IH]; intros k s L K F.
  - apply (Last k s K F). apply nth_error_None. lia.
  - destruct (nth_error data k) as [c|] eqn:E; [|exact (Last k s K F E)]. destruct (IH (S k) (write_at (lines_path cache i) k c s)) as (t & A & Sm).
    + apply next_le in E. lia.
    + exact (next_le _ _ _ E).
    + unfold write_at. rewrite F, (put_next _ _ _ E). apply set_same.
    + exists t. split; [|eapply same_trans; [apply set_twice|exact Sm]]. change (@nil pystr) with ([] ++ @nil pystr). eapply al_next; [|exact A]. unfold worker_step. cbv zeta. fold data. rewrite E. reflexivity.
Qed.
Let parser (b : bytes) : io (list page) :=
  v <~ cached_pdf_parser (Some (su_cache su)) (su_miner su) (su_write su) (su_read su) (mk_pdf b (issue_cache_id (fst i) (snd i))) ;; io_ret (no_pages (pages_of v)).
(* what the parser does, in one piece *)
Lemma parser_shape b s : parser b s =
  let q := lines_path cache i in
  if is_there q s then mk_out [] [] (match fs_file s q with Some t => x <- su_read su t ;; v <- to_object hun_table x PDF_TYPE ;; no_pages (pages_of v) | None => Err OSError end)
  else match (pages <- parse_pdf (su_miner su) b ;; x <- to_dict hun_table (pdf_value pages) PDF_TYPE ;; Ok (x, pages)) with
       | Err x => mk_out [] [] (Err x)
       | Ok (x, pages) => if can_open q s then mk_out (map (fun k => set_file q (firstn k (su_write su x)) s) (seq 0 (S (List.length (su_write su x))))) [] (no_pages (pages_of (pdf_value pages))) else mk_out [] [] (Err OSError)
       end.
Proof.
  unfold parser, cached_pdf_parser, cache_filename, cache_exists, io_exists, read_json, write_json, io_read, io_bind, io_ret. cbn [pf_cache_id pf_bytes o_res o_states o_urls app]. unfold final. cbn [o_states last].
  fold cache. change (path_join cache (issue_cache_id (fst i) (snd i) ++ u8 ".parsed_v5.gz")) with (lines_path cache i). cbv zeta. unfold is_there. destruct (fs_file s (lines_path cache i)) as [t|] eqn:Ef; [|destruct (fs_dir s (lines_path cache i)) eqn:Ed].
  - rewrite Ef. cbn [o_res o_states o_urls app]. destruct (su_read su t) as [x|x]; cbn [bind o_res o_states o_urls app]; [|reflexivity]. destruct (to_object hun_table x PDF_TYPE); reflexivity.
  - rewrite Ef. reflexivity.
  - destruct (parse_pdf (su_miner su) b) as [pages|x]; cbn [bind o_res o_states o_urls app last]; [|reflexivity]. destruct (to_dict hun_table (pdf_value pages) PDF_TYPE) as [x|x]; cbn [bind o_res o_states o_urls app last]; [|reflexivity].
    unfold io_write, can_open. rewrite Ed. destruct (_ && _); cbn [o_res o_states o_urls app last]; [|reflexivity]. rewrite !app_nil_r. reflexivity.
Qed.
Lemma parser_alone b s : exists t, alone su i (AtLines b) s (o_urls (parser b s)) (Finished (o_res (parser b s))) t /\ same_fs (final s (parser b s)) t.
Proof.
  rewrite parser_shape. cbv zeta. destruct (is_there (lines_path cache i) s) eqn:Et.
  - cbn [o_urls o_res]. exists s. split; [|apply same_refl]. change (@nil pystr) with ([] ++ [] ++ @nil pystr). eapply al_next; [unfold worker_step; cbv zeta; fold cache; fold (lines_path cache i); rewrite Et; reflexivity|].
    eapply al_next; [reflexivity|apply al_end].
  - match goal with |- context [match ?r with Ok _ => _ | Err _ => _ end] => destruct r as [[x pages]|x] eqn:Er end.
    + assert (St : alone su i (AtLines b) s [] (AtLinesOpen x pages) s).
      { change (@nil pystr) with ([] ++ [] ++ @nil pystr). eapply al_next; [unfold worker_step; cbv zeta; fold cache; fold (lines_path cache i); rewrite Et; reflexivity|].
        eapply al_next; [unfold worker_step; cbv zeta; rewrite Er; reflexivity|apply al_end]. }
      destruct (can_open (lines_path cache i) s) eqn:Eo; cbn [o_urls o_res].
      * destruct (writing_lines_loop x pages (List.length (su_write su x)) 0 (set_file (lines_path cache i) [] s)) as (t & A & Sm); [lia|lia|apply set_same|].
        exists t. split.
        -- change (@nil pystr) with (@nil pystr ++ [] ++ []). eapply alone_trans; [exact St|]. eapply al_next; [|exact A]. unfold worker_step. cbv zeta. fold cache. fold (lines_path cache i). rewrite Eo. reflexivity.
        -- unfold final. cbn [o_states]. rewrite last_map_seq, firstn_all. eapply same_trans; [apply set_twice|exact Sm].
      * exists s. split; [|apply same_refl]. change (@nil pystr) with (@nil pystr ++ []). eapply alone_trans; [exact St|]. apply alone_one. unfold worker_step. cbv zeta. fold cache. fold (lines_path cache i). rewrite Eo. reflexivity.
    + cbn [o_urls o_res]. exists s. split; [|apply same_refl]. change (@nil pystr) with ([] ++ [] ++ @nil pystr). eapply al_next; [unfold worker_step; cbv zeta; fold cache; fold (lines_path cache i); rewrite Et; reflexivity|].
      eapply al_next; [unfold worker_step; cbv zeta; rewrite Er; reflexivity|apply al_end].
Qed.
Lemma parser_same b s t : same_fs s t -> o_res (parser b t) = o_res (parser b s) /\ o_urls (parser b t) = o_urls (parser b s) /\ same_fs (final s (parser b s)) (final t (parser b t)).
Proof.
  intros Sm. pose proof Sm as [F D]. rewrite !parser_shape. cbv zeta. unfold is_there, can_open. rewrite !F, !D.
  destruct (match fs_file s (lines_path cache i) with Some _ => true | None => fs_dir s (lines_path cache i) end); [split; [reflexivity|split; [reflexivity|exact Sm]]|].
  match goal with |- context [match ?r with Ok _ => _ | Err _ => _ end] => destruct r as [[x pages]|x] end; [|split; [reflexivity|split; [reflexivity|exact Sm]]].
  destruct (_ && _); cbn [o_res o_urls]; (split; [reflexivity|]); (split; [reflexivity|]); [|exact Sm]. unfold final. cbn [o_states]. rewrite !last_map_seq. apply same_set. exact Sm.
Qed.
Lemma pages_shape s : pages_with_files su i s =
  let o := download_issue (Some cache) (su_net su) (fst i) (snd i) s in
  match o_res o with
  | Err x => mk_out (o_states o) (o_urls o) (Err x)
  | Ok f => let o' := (v <~ cached_pdf_parser (Some cache) (su_miner su) (su_write su) (su_read su) f ;; io_ret (no_pages (pages_of v))) (final s o) in mk_out (o_states o ++ o_states o') (o_urls o ++ o_urls o') (o_res o')
  end.
Proof. reflexivity. Qed.
Lemma download_shape s : download_issue (Some cache) (su_net su) (fst i) (snd i) s =
  let p := issue_path cache i in let open (s : fs) := match fs_file s p with Some b => Ok (mk_pdf b (issue_cache_id (fst i) (snd i))) | None => Err OSError end in
  if is_there p s then mk_out [] [] (open s)
  else match su_net su (issue_url i) with
       | Err x => mk_out [] [issue_url i] (Err x)
       | Ok data =>
           let o := io_makedirs (path_dirname p) s in
           match o_res o with
           | Err x => mk_out (o_states o) [issue_url i] (Err x)
           | Ok _ => if can_open p (final s o) then mk_out (o_states o ++ map (fun k => set_file p (firstn k data) (final s o)) (seq 0 (S (List.length data)))) [issue_url i] (Ok (mk_pdf data (issue_cache_id (fst i) (snd i))))
                     else mk_out (o_states o) [issue_url i] (Err OSError)
           end
       end.
Proof.
  assert (Op : forall t, open_pdf (issue_path cache i) (issue_cache_id (fst i) (snd i)) t = mk_out [] [] (match fs_file t (issue_path cache i) with Some b => Ok (mk_pdf b (issue_cache_id (fst i) (snd i))) | None => Err OSError end)).
  { intros t. unfold open_pdf, io_bind, io_read. cbn [o_res]. destruct (fs_file t (issue_path cache i)); reflexivity. }
  assert (U : o_urls (io_makedirs (path_dirname (issue_path cache i)) s) = []) by (unfold io_makedirs; destruct (_ || _); reflexivity).
  unfold download_issue, cache_filename, cache_exists, io_exists, write_bytes, io_download, io_bind, io_ret. cbn [o_res o_states o_urls app]. unfold final. cbn [o_states last].
  change (path_join cache (issue_cache_id (fst i) (snd i))) with (issue_path cache i). change (get_url (fst i) (snd i)) with (issue_url i). cbv zeta. unfold is_there.
  destruct (match fs_file s (issue_path cache i) with Some _ => true | None => fs_dir s (issue_path cache i) end).
  - cbn [o_res o_states o_urls app last]. rewrite Op. reflexivity.
  - destruct (su_net su (issue_url i)) as [data|x]; [|reflexivity]. cbn [o_res o_states o_urls app last].
    set (o := io_makedirs (path_dirname (issue_path cache i)) s) in *. destruct (o_res o) as [tt0|x]; cbn [o_res o_states o_urls app]; [|rewrite U; reflexivity].
    unfold io_write, can_open. destruct (_ && _); cbn [o_res o_states o_urls app]; rewrite ?U; cbn [app]; rewrite ?app_nil_r; [|reflexivity].
    rewrite Op. cbn [o_res o_states o_urls]. rewrite app_nil_r. rewrite last_app_map, firstn_all, set_same. reflexivity.
Qed.
Lemma alone_all s : exists t, alone su i AtStart s (o_urls (pages_with_files su i s)) (Finished (o_res (pages_with_files su i s))) t /\ same_fs (final s (pages_with_files su i s)) t.
Proof.
  rewrite pages_shape, download_shape. cbv zeta.
  destruct (is_there (issue_path cache i) s) eqn:Et.
  - assert (S1 : alone su i AtStart s [] AtFile s) by (apply alone_one; unfold worker_step; cbv zeta; fold cache; fold (issue_path cache i); rewrite Et; reflexivity).
    destruct (fs_file s (issue_path cache i)) as [b|] eqn:Ef; cbn [o_res o_states o_urls app].
    + change (final s (mk_out [] [] (Ok (mk_pdf b (issue_cache_id (fst i) (snd i)))))) with s.
      match goal with |- context [io_bind ?m ?k s] => change (io_bind m k s) with (parser b s) end.
      destruct (parser_alone b s) as (t & A & Sm). exists t. split; [|exact Sm]. change (o_urls (parser b s)) with ([] ++ [] ++ o_urls (parser b s)). eapply alone_trans; [exact S1|]. eapply al_next; [|exact A].
      unfold worker_step. cbv zeta. fold cache. fold (issue_path cache i). rewrite Ef. reflexivity.
    + exists s. split; [|apply same_refl]. change (@nil pystr) with (@nil pystr ++ []). eapply alone_trans; [exact S1|]. apply alone_one. unfold worker_step. cbv zeta. fold cache. fold (issue_path cache i). rewrite Ef. reflexivity.
  - assert (S1 : alone su i AtStart s [] AtNet s) by (apply alone_one; unfold worker_step; cbv zeta; fold cache; fold (issue_path cache i); rewrite Et; reflexivity).
    destruct (su_net su (issue_url i)) as [data|x] eqn:En.
    2: { cbn [o_res o_states o_urls app]. exists s. split; [|apply same_refl]. change [issue_url i] with ([] ++ [issue_url i]). eapply alone_trans; [exact S1|]. apply alone_one. unfold worker_step. cbv zeta. fold (issue_url i). rewrite En. reflexivity. }
    assert (S2 : alone su i AtStart s [issue_url i] (AtDirs data) s).
    { change [issue_url i] with ([] ++ [issue_url i]). eapply alone_trans; [exact S1|]. apply alone_one. unfold worker_step. cbv zeta. fold (issue_url i). rewrite En. reflexivity. }
    set (o := io_makedirs (path_dirname (issue_path cache i)) s). destruct (o_res o) as [tt0|x] eqn:Eo; cbn [o_res o_states o_urls app].
    2: { exists (final s o). split; [|apply same_refl]. rewrite <- (app_nil_r [issue_url i]). eapply alone_trans; [exact S2|]. apply alone_one. unfold worker_step. cbv zeta. fold cache. fold (issue_path cache i) o. rewrite Eo. reflexivity. }
    assert (S3 : alone su i AtStart s [issue_url i] (AtOpen data) (final s o)).
    { rewrite <- (app_nil_r [issue_url i]). eapply alone_trans; [exact S2|]. apply alone_one. unfold worker_step. cbv zeta. fold cache. fold (issue_path cache i) o. rewrite Eo. reflexivity. }
    destruct (can_open (issue_path cache i) (final s o)) eqn:Ec; cbn [o_res o_states o_urls app].
    2: { exists (final s o). split; [|apply same_refl]. rewrite <- (app_nil_r [issue_url i]). eapply alone_trans; [exact S3|]. apply alone_one. unfold worker_step. cbv zeta. fold cache. fold (issue_path cache i). rewrite Ec. reflexivity. }
    match goal with |- context [io_bind ?m ?k (final s ?out)] => change (io_bind m k (final s out)) with (parser data (final s out)) end.
    match goal with |- context [parser data (final s ?out)] => assert (Fi : final s out = set_file (issue_path cache i) data (final s o)) end.
    { unfold final at 1. cbn [o_states]. now rewrite last_app_map, firstn_all. }
    rewrite Fi. set (s2 := set_file (issue_path cache i) data (final s o)) in *.
    destruct (writing_loop data (List.length data) 0 (set_file (issue_path cache i) [] (final s o))) as (t & A & Sm); [lia|lia|apply set_same|].
    assert (Sm2 : same_fs s2 t) by (eapply same_trans; [apply set_twice|exact Sm]). destruct (parser_same data s2 t Sm2) as (P1 & P2 & P3). destruct (parser_alone data t) as (t' & A' & Sm').
    exists t'. split.
    + rewrite P1, P2 in A'. change (issue_url i :: o_urls (parser data s2)) with ([issue_url i] ++ [] ++ [] ++ [] ++ o_urls (parser data s2)). eapply alone_trans; [exact S3|].
      eapply al_next; [unfold worker_step; cbv zeta; fold cache; fold (issue_path cache i); rewrite Ec; reflexivity|]. eapply alone_trans; [exact A|]. eapply al_next; [|exact A'].
      unfold worker_step. cbv zeta. fold cache. fold (issue_path cache i). rewrite (proj1 Sm2). unfold s2. rewrite set_same. reflexivity.
    + eapply same_trans; [|exact Sm']. eapply same_trans; [|exact P3]. unfold final. cbn [o_states].
      rewrite last_join. rewrite last_app_map, firstn_all. fold s2. apply same_refl.
Qed.
End alone.
