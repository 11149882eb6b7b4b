(* C61: the command line program. *)
From Verif Require Import PyBase PyBaseFacts IdModel LineModel DateModel RefModel TreeModel TreeSpec StructModel SemModel FixupModel GazModel GazSpec D2oModel D2oSpec D2oHun D2oHunSpec CacheModel ExtModel HtmlModel TxtModel TxtSpec.
From Verif Require Import CacheProofs PipeModel PipeSpec CliModel CliSpec CliProofs P_Struct P_D2o P_Txt P_Pipe.
From Coq Require Import Permutation.
Local Open Scope Z_scope.

(** C61: issues are given as a year and a number; the file of each act holds what the output function makes of the
    last act with its name; and the number of workers does not matter if no two acts have the same name. *)
Theorem C61_issue : forall s y n, parse_issue s = Ok (y, n) <-> issue_written s y n.
Proof. exact issue_ok. Qed.
Print Assumptions C61_issue.
Theorem C61_issue_errors : forall s e, parse_issue s = Err e -> e = ValueError.
Proof. exact issue_error. Qed.
Print Assumptions C61_issue_errors.
Theorem C61_issue_printed : forall y n, 0 <= y -> 0 <= n -> parse_issue (str_of_int y ++ u8 "/" ++ str_of_int n) = Ok (y, n).
Proof.
  intros y n Y N. apply issue_ok. exists (str_of_int y), (str_of_int n). split; [reflexivity|]. split; [apply int_no_slash|]. split; apply py_int_str_of_int; assumption.
Qed.
Print Assumptions C61_issue_printed.
Example C61_issue_ex : parse_issue (u8 "2013/31") = Ok (2013, 31) /\ parse_issue (u8 " 2_013 / -7 ") = Ok (2013, -7) /\ parse_issue (u8 "2013/31/1") = Err ValueError /\ parse_issue (u8 "2013") = Err ValueError.
Proof. repeat split; vm_compute; reflexivity. Qed.

Theorem C61_files : forall w a dir g s s', splits (wr_wrapper w) -> ar_output_dir a = Some dir -> run_from w a g s = (s', None) ->
  g_end g = None /\ cs_stdout s' = cs_stdout s /\ (forall p, file_after w a dir (g_items g) p (fs_file (cs_fs s) p) (fs_file (cs_fs s') p)).
Proof. exact files_ok. Qed.
Print Assumptions C61_files.
Theorem C61_stdout : forall w a g s s', splits (wr_wrapper w) -> ar_output_dir a = None -> run_from w a g s = (s', None) ->
  g_end g = None /\ cs_fs s' = cs_fs s /\ exists ts, cs_stdout s' = cs_stdout s ++ concat ts /\
    Forall2 (fun o t => (exists n p, shown w a [] n o p t) \/ ((forall n p t, ~ shown w a [] n o p t) /\ t = [])) (g_items g) ts.
Proof. exact stdout_ok. Qed.
Print Assumptions C61_stdout.
Theorem C61_names : forall e a fuel order g, Permutation (issues_of a) order -> extracted_of e a fuel order = Some g ->
  Forall (fun o => forall n d, document o n d -> law_header n) (g_items g).
Proof. exact names_ok. Qed.
Print Assumptions C61_names.
Theorem C61_step : forall e a fuel order g, extracted_of e a fuel order = Some g -> Forall (made_by (ar_step a)) (g_items g).
Proof. exact step_class_ok. Qed.
Print Assumptions C61_step.
Theorem C61_workers : forall e w a dir fuel order s s1 workers order' g, splits (wr_wrapper w) -> ar_output_dir a = Some dir ->
  Permutation (issues_of a) order -> Permutation (issues_of a) order' ->
  extracted_of e a fuel order = Some g -> NoDup (names (g_items g)) -> run e w a fuel order s = Some (s1, None) ->
  exists fuel' s2, run e w (with_workers a workers) fuel' order' s = Some (s2, None) /\ cs_stdout s2 = cs_stdout s1 /\
    forall p, fs_file (cs_fs s2) p = fs_file (cs_fs s1) p.
Proof. exact workers_ok. Qed.
Print Assumptions C61_workers.
(* What is in a JSON file is read back as an act that is equal to the one written. *)
Theorem C61_json : forall w load a t out, (forall d, plain d -> load (wr_dump w d) = Ok d) ->
  writable a -> (forall l, line_in_act a l -> numbers l) -> output_fn w Json (OAct a) = Ok (t, out) ->
  exists d v, load t = Ok d /\ to_object hun_table d (TClass (u8 "Act")) = Ok v /\ py_eq hun_table (act_value a) v = true.
Proof.
  intros w load a t out L W N H. destruct (C42_act a W N) as (d & v & D & P & O & Q). cbn [output_fn json_file] in H. rewrite D in H. cbn [bind] in H. injection H as <- _.
  exists d, v. split; [exact (L d P)|]. split; [exact O|exact Q].
Qed.
Print Assumptions C61_json.

(* two issues with two laws; the second one has other texts, but the same names, if [again] *)
Definition c61_pages (first second text : pystr) : list page :=
  [ [text_line 20 (u8 "MAGYAR KÖZLÖNY 71. szám"); text_line 20 (u8 "-"); text_line 20 (u8 "A MAGYAR KÖZTÁRSASÁG HIVATALOS LAPJA"); text_line 20 (u8 "2011. június 28., kedd"); text_line 20 (u8 "--");
     text_line 20 (u8 "Tartalomjegyzék")];
    map (text_line 20) ([u8 "2011. június 28."; []; u8 "II. Törvények"; []; first; u8 "a példáról*"; text; []; u8 "Áder János s. k., Kövér László s. k.,"; u8 "köztársasági elnök az Országgyűlés elnöke"]);
    map (text_line 20) ([u8 "2011. június 28."; []; second; u8 "a példáról*"; text; []; u8 "Áder János s. k., Kövér László s. k.,"; u8 "köztársasági elnök az Országgyűlés elnöke"]) ].
Definition c61_env (again : bool) : env :=
  mk_env (fun y i => mk_gen [mk_pdf [] (issue_cache_id y i)] None)
    (fun f => mk_gen [if str_eqb (pf_cache_id f) (u8 "MK/2011/71.pdf") then c61_pages (u8 "2011. évi CV. törvény") (u8 "2011. évi CVI. törvény") (u8 "1. § Ez az.")
                      else if again then c61_pages (u8 "2011. évi CV. törvény") (u8 "2011. évi CVI. törvény") (u8 "1. § Ez más.")
                      else c61_pages (u8 "2011. évi CVII. törvény") (u8 "2011. évi CVIII. törvény") (u8 "1. § Ez más.")] None)
    [] (fun _ => Some (mk_analysis [] [] [])).
Definition c61_writers : writers := mk_writers c50_wrapper (fun _ => []) (fun _ _ => []).
Definition c61_args (f : output_format) (dir single : option pystr) (st : extraction_step) (workers : Z) : args := mk_args f [(2011, 71); (2011, 72)] dir single st workers.
Definition c61_start : cli_state := mk_cli (mk_fs (fun p => if str_eqb p (u8 "out/2011. évi CV. törvény.txt") then Some (u8 "régi") else None) (fun _ => false)) [].
Definition c61_see (r : option (cli_state * option exn)) (ps : list pystr) :=
  match r with Some (s, e) => (map (fun p => fs_file (cs_fs s) p) ps, cs_stdout s, e) | None => ([], [], Some OutOfFuel) end.
Definition c61_text (n t : pystr) : pystr := u8 "==== " ++ n ++ u8 " - a példáról =====" ++ [10%N; 10%N] ++ u8 "1. §           " ++ t ++ [10%N; 10%N].
Definition c61_order : list obj := [ODownload 2011 72; ODownload 2011 71].
Example C61_ex :
  let files := [u8 "out/2011. évi CV. törvény.txt"; u8 "out/2011. évi CVI. törvény.txt"; u8 "out/2011. évi CVII. törvény.txt"] in
  c61_see (run (c61_env false) c61_writers (c61_args Txt (Some (u8 "out")) None full 4) 100 c61_order c61_start) files =
    ([Some (c61_text (u8 "2011. évi CV. törvény") (u8 "Ez az.")); Some (c61_text (u8 "2011. évi CVI. törvény") (u8 "Ez az.")); Some (c61_text (u8 "2011. évi CVII. törvény") (u8 "Ez más."))], [], None) /\
  c61_see (run (c61_env false) c61_writers (c61_args Txt (Some (u8 "out")) (Some (u8 "2011. évi CVII. törvény")) full 4) 100 c61_order c61_start) files =
    ([Some (u8 "régi"); None; Some (c61_text (u8 "2011. évi CVII. törvény") (u8 "Ez más."))], [], None) /\
  c61_see (run (c61_env false) c61_writers (c61_args Txt None (Some (u8 "2011. évi CVII. törvény")) full 1) 100 c61_order c61_start) files =
    ([Some (u8 "régi"); None; None], c61_text (u8 "2011. évi CVII. törvény") (u8 "Ez más."), None) /\
  (exists g, extracted_of (c61_env false) (c61_args Txt (Some (u8 "out")) None full 4) 100 c61_order = Some g /\
     names (g_items g) = [u8 "2011. évi CVIII. törvény"; u8 "2011. évi CVII. törvény"; u8 "2011. évi CVI. törvény"; u8 "2011. évi CV. törvény"]).
Proof. cbv zeta. split; [vm_compute; reflexivity|]. split; [vm_compute; reflexivity|]. split; [vm_compute; reflexivity|]. eexists. split; vm_compute; reflexivity. Qed.
Example C61_step_ex : option_map (fun g => map class_of (g_items g)) (extracted_of (c61_env false) (c61_args Txt None None ba_only 4) 100 c61_order) = Some [CBlock; CBlock; CBlock; CBlock].
Proof. vm_compute. reflexivity. Qed.

(* Only one act is asked for, but all are written if semantic parsing is left out. *)
Theorem C61_single_act_refuted : forall w o name d a dir, document o name d -> ar_step a = structure_only \/ ar_step a = ba_only -> ar_output_dir a = Some dir ->
  forall t out s s', output_fn w (ar_format a) d = Ok (t, out) -> output_one w a o s = (s', None) ->
  fs_file (cs_fs s') (path_join dir (name ++ u8 "." ++ format_name (ar_format a))) = Some t.
Proof.
  intros w o name d a dir D S O t out s s' F H. unfold output_one in H.
  assert (K : the_act o = d /\ identifier_of d = name) by (inversion D; subst; split; reflexivity). destruct K as [K1 K2]. rewrite K1 in H.
  assert (SK : skipped a d = false) by (unfold skipped; destruct S as [-> | ->]; reflexivity). rewrite SK, O in H. cbv zeta in H. rewrite F in H. unfold file_path in H. rewrite K2 in H.
  match type of H with (if ?b then _ else _) = _ => destruct b end; [|discriminate]. injection H as <-. cbn [cs_fs set_file fs_file]. now rewrite str_eqb_refl.
Qed.
Print Assumptions C61_single_act_refuted.
Example C61_single_act_ex :
  c61_see (run (c61_env false) c61_writers (c61_args Txt (Some (u8 "out")) (Some (u8 "2011. évi CVII. törvény")) ba_only 4) 100 c61_order c61_start) [u8 "out/2011. évi CV. törvény.txt"] =
    ([Some (c61_text (u8 "2011. évi CV. törvény") (u8 "Ez az."))], [], None).
Proof. vm_compute. reflexivity. Qed.

(* Acts with the same name overwrite each other, and which one is left depends on the number of workers. *)
Theorem C61_workers_refuted : exists e a order,
  ar_output_dir a = Some (u8 "out") /\ Permutation (issues_of a) order /\
  c61_see (run e c61_writers a 100 order c61_start) [u8 "out/2011. évi CV. törvény.txt"] <>
  c61_see (run e c61_writers (with_workers a 2) 100 order c61_start) [u8 "out/2011. évi CV. törvény.txt"] /\
  (forall x, x = a \/ x = with_workers a 2 -> exists s, run e c61_writers x 100 order c61_start = Some (s, None)).
Proof.
  exists (c61_env true), (c61_args Txt (Some (u8 "out")) None full 1), [ODownload 2011 71; ODownload 2011 72].
  split; [reflexivity|]. split; [apply Permutation_refl|]. split; [vm_compute; discriminate|].
  intros x [-> | ->]; eexists; vm_compute; reflexivity.
Qed.
Print Assumptions C61_workers_refuted.

(* HTML cannot be made of raw laws; the file that was there is lost all the same. *)
Theorem C61_html_refuted : forall w a dir x s, ar_format a = Html -> ar_output_dir a = Some dir -> skipped a (ORaw x) = false ->
  let p := path_join dir (lw_identifier x ++ u8 ".html") in
  fs_dir (cs_fs s) (path_dirname p) = true -> fs_dir (cs_fs s) p = false ->
  output_one w a (ORaw x) s = (mk_cli (set_file p (wr_partial w Html (ORaw x)) (cs_fs s)) (cs_stdout s), Some TypeError).
Proof.
  intros w a dir x s F O S p D P. unfold output_one. cbn [the_act]. rewrite S, O. cbv zeta. unfold file_path. cbn [identifier_of]. rewrite F. cbn [format_name output_fn].
  change (u8 "." ++ u8 "html") with (u8 ".html"). fold p. rewrite P. cbn [negb]. rewrite Bool.andb_true_r.
  destruct (path_dirname p); [reflexivity|]. now rewrite D.
Qed.
Print Assumptions C61_html_refuted.
Example C61_html_ex :
  c61_see (run (c61_env false) c61_writers (c61_args Html (Some (u8 "out")) None raw_act 4) 100 c61_order c61_start) [u8 "out/2011. évi CVIII. törvény.html"; u8 "out/2011. évi CVII. törvény.html"] =
    ([Some []; None], [], Some TypeError).
Proof. vm_compute. reflexivity. Qed.

(* A name may have a slash behind the word it is recognised by; such a law stops the program. *)
Definition c61_slash_env : env :=
  mk_env (fun y i => mk_gen [mk_pdf [] (issue_cache_id y i)] None)
    (fun f => mk_gen [c61_pages (u8 "2011. évi CV. törvény 1/2") (u8 "2011. évi CVI. törvény") (u8 "1. § Ez az.")] None)
    [] (fun _ => Some (mk_analysis [] [] [])).
Theorem C61_slash_refuted :
  c61_see (run c61_slash_env c61_writers (mk_args Txt [(2011, 71)] (Some (u8 "out")) None full 1) 100 [] c61_start) [u8 "out/2011. évi CVI. törvény.txt"] =
    ([Some (c61_text (u8 "2011. évi CVI. törvény") (u8 "Ez az."))], [], Some OSError).
Proof. vm_compute. reflexivity. Qed.
Print Assumptions C61_slash_refuted.
