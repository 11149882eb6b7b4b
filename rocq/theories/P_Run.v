(* C82: the whole program with its cache. *)
From Coq Require Import Lia Permutation.
From Verif Require Import PyBase PyBaseFacts IdModel LineModel DateModel TreeModel SemModel FixupModel PegModel PdfModel GazModel D2oModel D2oSpec D2oHun JsonSpec CacheModel CacheSpec CacheProofs CacheExample ExtModel ExtSpec
  HtmlModel TxtModel TxtSpec PipeModel CliModel CliSpec P_Txt IssueSpec IssueProofs P_Issue RunModel RunSpec RunProofs RunProofs2 RunProofs3.
Local Open Scope Z_scope.

(** C82: a run with the cache does what one without it does, from any disk whose cache is right about the issues: it prints the
    same and ends with the same error, if any, and files outside of the cache have the same contents.  The files that were in
    the cache are kept.  An address is opened at most once, and only for issues that were not in the cache; if there is no
    error, all of these are opened, and both files of every issue are in the cache at the end. *)
Theorem C82_run : forall su a e fuel order g s s1 r, e_fixups e = su_fixups su -> e_analyzer e = grammar_analyzer -> codec (su_write su) (su_read su) -> one_process a ->
  extracted_of e a fuel order = Some g -> run_from (su_writers su) a g s = (s1, r) ->
  (forall i, In i (ar_issues a) -> agrees su e (cs_fs s) i) -> room su a (cs_fs s) (g_items g) ->
  exists s' l, run_with_files su a fuel s = Some (s', map issue_url l, r) /\ cs_stdout s' = cs_stdout s1 /\
    (forall p, ~ cache_file (su_cache su) (ar_issues a) p -> fs_file (cs_fs s') p = fs_file (cs_fs s1) p) /\
    (forall p, fs_file (cs_fs s) p <> None -> cache_file (su_cache su) (ar_issues a) p -> fs_file (cs_fs s') p = fs_file (cs_fs s) p) /\
    NoDup l /\ (forall i, In i l -> In i (ar_issues a) /\ fs_file (cs_fs s) (issue_path (su_cache su) i) = None) /\
    (r = None -> forall i, In i (ar_issues a) -> stored su e (cs_fs s') i /\ (fs_file (cs_fs s) (issue_path (su_cache su) i) = None -> In i l)).
Proof.
  intros su a e fuel order g s s1 r Fx An Co Op Eg R Ag Rm. rewrite (one_process_work e a fuel order Op) in Eg.
  destruct (run_ok su a e fuel g s s1 r Fx An Co Eg R Ag Rm) as (s' & l & W & Al & _ & H). exists s', l. split; [exact W|]. split; [exact (ab_stdout _ _ _ _ Al)|]. split; [exact (ab_file _ _ _ _ Al)|exact H].
Qed.
Print Assumptions C82_run.
(* After a run that wrote all files, another one opens no address and leaves every file as it was, whatever has become of the
   net and of the library that reads PDF files. *)
Theorem C82_again : forall su su' a e dir fuel order g s s1, e_fixups e = su_fixups su -> e_analyzer e = grammar_analyzer -> codec (su_write su) (su_read su) ->
  splits (wr_wrapper (su_writers su)) -> ar_output_dir a = Some dir -> same_disk su su' -> one_process a ->
  extracted_of e a fuel order = Some g -> run_from (su_writers su) a g s = (s1, None) ->
  (forall i, In i (ar_issues a) -> agrees su e (cs_fs s) i) -> room su a (cs_fs s) (g_items g) ->
  exists s' urls s'', run_with_files su a fuel s = Some (s', urls, None) /\ run_with_files su' a fuel s' = Some (s'', [], None) /\
    cs_stdout s'' = cs_stdout s' /\ forall p, fs_file (cs_fs s'') p = fs_file (cs_fs s') p.
Proof.
  intros su su' a e dir fuel order g s s1 Fx An Co Sp Di Sd Op Eg R Ag Rm. rewrite (one_process_work e a fuel order Op) in Eg.
  destruct (run_ok su a e fuel g s s1 None Fx An Co Eg R Ag Rm) as (s' & l & W & Al & Ca & _ & _ & _ & Sl).
  destruct (again_ok su su' a e dir fuel g s s1 s' Fx An Co Sp Di Sd Eg R Rm Al Ca (fun i I => proj1 (Sl eq_refl i I))) as (s'' & W' & O' & F'). exists s', (map issue_url l), s''. auto.
Qed.
Print Assumptions C82_again.
(* Printed issues of the gazette, of which the cache has both files or none: the acts printed in them are written to their
   files, just the issues that were not in the cache are downloaded, and no other file outside of the cache is changed.  After
   that the program gives the same without the net. *)
Theorem C82_printed : forall su su' a dir actss s, let e := env_of (su_net su) (su_miner su) (su_fixups su) in
  codec (su_write su) (su_read su) -> splits (wr_wrapper (su_writers su)) -> same_disk su su' ->
  ar_step a = full -> ar_format a = Json -> ar_output_dir a = Some dir -> one_process a -> Forall2 (served (su_net su) (su_miner su) (su_fixups su)) (ar_issues a) actss ->
  (forall b pages, parse_pdf (su_miner su) b = Ok pages -> clean_pages pages) ->
  NoDup (map act_identifier (concat actss)) -> can_make (cs_fs s) dir -> room su a (cs_fs s) (map OAct (concat actss)) ->
  (forall i, In i (ar_issues a) -> (absent (cs_fs s) (issue_path (su_cache su) i) /\ absent (cs_fs s) (lines_path (su_cache su) i)) \/ stored su e (cs_fs s) i) ->
  let target c := path_join dir (act_identifier c ++ u8 ".json") in
  (forall c, In c (concat actss) -> fs_dir (cs_fs s) (target c) = false) ->
  exists fuel s' l s'', run_with_files su a fuel s = Some (s', map issue_url l, None) /\ cs_stdout s' = cs_stdout s /\
    NoDup l /\ (forall i, In i l <-> In i (ar_issues a) /\ fs_file (cs_fs s) (issue_path (su_cache su) i) = None) /\
    (forall c, In c (concat actss) -> asked a (act_identifier c) -> fs_file (cs_fs s') (target c) = Some (wr_dump (su_writers su) (act_json c))) /\
    (forall p, (forall c, In c (concat actss) -> asked a (act_identifier c) -> p <> target c) -> ~ cache_file (su_cache su) (ar_issues a) p -> fs_file (cs_fs s') p = fs_file (cs_fs s) p) /\
    run_with_files su' a fuel s' = Some (s'', [], None) /\ cs_stdout s'' = cs_stdout s' /\ (forall p, fs_file (cs_fs s'') p = fs_file (cs_fs s') p).
Proof. exact printed_ok. Qed.
Print Assumptions C82_printed.

(** Examples *)
Definition c82_setup (net : pystr -> res bytes) (miner : bytes -> res (list event)) : setup := mk_setup (u8 "/opt/hun_law/../cache") net miner enc example_read [] c76_writers.
Lemma c82_clean b pages : parse_pdf c76_miner b = Ok pages -> clean_pages pages.
Proof.
  assert (C : clean_pages (map c76_page c76_css)).
  { assert (X : forallb (forallb (fun l => match l_margin_right l with SpecFloat.S754_zero true => false | _ => true end)) (map c76_page c76_css) = true) by (vm_compute; reflexivity).
    revert X. generalize (map c76_page c76_css). intros ps X. rewrite forallb_forall in X. apply Forall_forall. intros p Ip. specialize (X p Ip). rewrite forallb_forall in X. apply Forall_forall. intros l Il E. specialize (X l Il). rewrite E in X. discriminate. }
  revert C. intros C H. rewrite (C76_pages c76_miner b c76_css (map c76_page c76_css) eq_refl c76_drawn_pages) in H. apply (f_equal (fun r => match r with Ok x => x | Err _ => [] end)) in H. cbv beta iota in H. rewrite <- H. exact C.
Qed.
Lemma c82_room net miner : room (c82_setup net miner) c76_args (cs_fs c76_start) (map OAct (concat [[c76_act]])).
Proof.
  constructor.
  - split; [discriminate|]. repeat constructor.
  - intros i [<-|[]]. split; [discriminate|]. repeat constructor.
  - intros p (i & [<-|[]] & [->| ->]); (split; [reflexivity|]); intros dir E I; injection E as <-; vm_compute in I; repeat (destruct I as [I|I]; [discriminate|]); destruct I.
  - intros dir o E [<-|[]]. injection E as <-. split; [|split].
    + intros I. vm_compute in I. repeat (destruct I as [I|I]; [discriminate|]). destruct I.
    + intros (i & [<-|[]] & [I|I]); vm_compute in I; discriminate.
    + intros [I|(i & [<-|[]] & I)]; vm_compute in I; repeat (destruct I as [I|I]; [discriminate|]); destruct I.
Qed.
Definition c82_url : pystr := get_url 2020 1.
(* the issue is downloaded and its act is written; then there is no net, and no library *)
Example C82_ex : exists fuel s' s'', run_with_files (c82_setup c76_net c76_miner) c76_args fuel c76_start = Some (s', [c82_url], None) /\
  fs_file (cs_fs s') (u8 "out/2020. évi I. törvény.json") = Some (enc (act_json c76_act)) /\ fs_file (cs_fs s') (u8 "other") = Some (u8 "régi") /\
  run_with_files (c82_setup (fun _ => Err OSError) (fun _ => Err ValueError)) c76_args fuel s' = Some (s'', [], None) /\
  fs_file (cs_fs s'') (u8 "out/2020. évi I. törvény.json") = Some (enc (act_json c76_act)).
Proof.
  destruct (C82_printed (c82_setup c76_net c76_miner) (c82_setup (fun _ => Err OSError) (fun _ => Err ValueError)) c76_args (u8 "out") [[c76_act]] c76_start) as (fuel & s' & l & s'' & W & _ & Nd & Il & Fw & Fk & W' & _ & Fs).
  - exact example_codec.
  - exact c50_splits.
  - repeat split.
  - reflexivity.
  - reflexivity.
  - reflexivity.
  - right. cbn. lia.
  - constructor; [exact c76_served|constructor].
  - exact c82_clean.
  - cbn. repeat constructor. intros [].
  - split; [discriminate|]. repeat constructor.
  - apply c82_room.
  - intros i [<-|[]]. left. repeat split.
  - intros c [<-|[]]. reflexivity.
  - assert (L : l = [(2020, 1)]).
    { assert (I1 : In (2020, 1) l) by (apply Il; split; [left; reflexivity|reflexivity]). assert (Al : forall i, In i l -> i = (2020, 1)) by (intros i I; apply Il in I as [[<-|[]] _]; reflexivity).
      destruct l as [|x [|y l]]; [destruct I1|rewrite (Al x) by (left; reflexivity); reflexivity|]. exfalso. inversion Nd as [|? ? N _]; subst. apply N. left. rewrite (Al x), (Al y); [reflexivity|right; left; reflexivity|left; reflexivity]. }
    subst l. assert (T : fs_file (cs_fs s') (u8 "out/2020. évi I. törvény.json") = Some (enc (act_json c76_act))) by (apply (Fw c76_act); [left; reflexivity|right; right; discriminate]).
    exists fuel, s', s''. split; [exact W|]. split; [exact T|]. split; [|split; [exact W'|rewrite Fs; exact T]].
    rewrite Fk; [reflexivity| |]; [intros c [<-|[]] _; discriminate|]. intros (i & [<-|[]] & [I|I]); vm_compute in I; discriminate.
Qed.
