(* C83: worker processes and the cache. *)
From Coq Require Import Lia Permutation.
From Verif Require Import PyBase PyBaseFacts IdModel LineModel DateModel TreeModel SemModel FixupModel PegModel PdfModel GazModel D2oModel D2oSpec D2oHun JsonSpec CacheModel CacheSpec CacheProofs CacheExample ExtModel ExtSpec
  HtmlModel TxtModel TxtSpec PipeModel CliModel CliSpec IssueSpec P_Issue RunModel RunSpec RunProofs P_Run WorkModel WorkSpec WorkProofs WorkProofs2.
Local Open Scope Z_scope.

(** C83: workers with different issues use one cache, in steps that come in any order, while others change files elsewhere.
    Whenever a worker has finished, it has what there is of its issue, and both files of the issue are in the cache if there
    was no error.  The files that were in the cache are kept.  An address is opened at most once, and just those of the issues
    that were not in the cache. *)
Theorem C83_workers : forall su e issues s sy, codec (su_write su) (su_read su) -> NoDup issues ->
  (forall i, In i issues -> agrees su e s i) -> ready su issues s -> reaches su issues (at_start issues s) sy ->
  map fst (sy_workers sy) = issues /\
  (forall i r, In (i, Finished r) (sy_workers sy) -> told e i r /\ forall pages, r = Ok pages -> stored su e (sy_fs sy) i) /\
  (forall p, cache_file (su_cache su) issues p -> fs_file s p <> None -> fs_file (sy_fs sy) p = fs_file s p) /\
  exists l, sy_urls sy = map issue_url l /\ NoDup l /\ (forall i, In i l -> In i issues /\ fs_file s (issue_path (su_cache su) i) = None) /\
    (forall i r, In (i, Finished r) (sy_workers sy) -> fs_file s (issue_path (su_cache su) i) = None -> In i l).
Proof.
  intros su e issues s sy Co Nd Ag Re Rs. destruct (inv_reaches su e s issues Co Nd sy Ag Re Rs) as (l & [_ Ik Ii Io Iu In1 If It]).
  split; [exact Ii|]. split; [intros i r I; exact (Io i _ I)|]. split; [intros p (i & I & E) N; exact (Ik i I p E N)|].
  exists l. split; [exact Iu|]. split; [exact In1|]. split; [exact If|]. intros i r I N. exact (proj2 (It _ I) (fun x : False => x) N).
Qed.
Print Assumptions C83_workers.
(* A step changes no file but the two of its issue, and no directory but those above them, of which it removes none. *)
Theorem C83_step : forall su i ph s ph' s' u, worker_step su i ph s = (ph', s', u) ->
  (forall p, p <> issue_path (su_cache su) i -> p <> lines_path (su_cache su) i -> fs_file s' p = fs_file s p) /\
  (forall q, fs_dir s q = true -> fs_dir s' q = true) /\ (forall q, fs_dir s' q = true -> fs_dir s q = true \/ In q (issue_dirs (su_cache su) i)).
Proof. intros su i ph s ph' s' u H. destruct (step_touches su i ph s ph' s' u H) as [H1 H2 H3]. auto. Qed.
Print Assumptions C83_step.
(* No worker goes on for ever, whatever is on the disk and whatever others do; and from wherever the workers are, they can all
   finish. *)
Theorem C83_ends : forall su, well_founded (comes_to su) /\
  forall issues sy, exists sy', reaches su issues sy sy' /\ forall w, In w (sy_workers sy') -> exists r, snd w = Finished r.
Proof. intros su. split; [apply ends_all|]. intros issues [s ws urls]. apply (finish_all su issues ws [] s urls). intros w []. Qed.
Print Assumptions C83_ends.
(* What the program gets from workers that have finished, in any order, is what it would get without the cache. *)
Theorem C83_results : forall su a e s sy fuel results, let classes := [output_class (ar_step a)] in
  e_fixups e = su_fixups su -> e_analyzer e = grammar_analyzer -> codec (su_write su) (su_read su) -> NoDup (ar_issues a) ->
  (forall i, In i (ar_issues a) -> agrees su e s i) -> ready su (ar_issues a) s -> reaches su (ar_issues a) (at_start (ar_issues a) s) sy ->
  Permutation (map (fun x => (fst x, Finished (snd x))) results) (sy_workers sy) ->
  Permutation (map fst results) (ar_issues a) /\
  option_map yield_all (all_some (map (fun x => worker_result su classes fuel (snd x)) results)) =
    do_extraction_multithreaded (hun_world e) classes (S (S fuel)) (map (fun x => ODownload (fst (fst x)) (snd (fst x))) results).
Proof.
  intros su a e s sy fuel results classes Fx An Co Nd Ag Re Rs P. destruct (C83_workers su e (ar_issues a) s sy Co Nd Ag Re Rs) as (Ei & Ok & _). split.
  - apply (Permutation_map fst) in P. rewrite map_map in P. cbn [fst] in P. rewrite Ei in P. exact P.
  - unfold do_extraction_multithreaded. rewrite map_map. do 2 f_equal. apply map_ext_in. intros [i r] I. cbn [fst snd]. apply (result_job su a e Fx An). apply (Ok i r).
    eapply Permutation_in; [exact P|]. apply in_map_iff. exists (i, r). auto.
Qed.
Print Assumptions C83_results.
(* With no one in between, the steps of a worker are what C47, C51 and C82 are about. *)
Theorem C83_alone : forall su i s, let o := pages_with_files su i s in
  exists s', alone su i AtStart s (o_urls o) (Finished (o_res o)) s' /\ same_fs (final s o) s'.
Proof. exact alone_all. Qed.
Print Assumptions C83_alone.

(** Examples *)
(* of two issues the net has one, and a worker for each: they finish, the first with its pages *)
Lemma c83_agrees : let su := c82_setup c76_net c76_miner in forall i, In i [(2020, 1); (2020, 2)] -> agrees su (env_of c76_net c76_miner []) (cs_fs c76_start) i.
Proof.
  intros su i [<-|[<-|[]]].
  - eapply (ag_net su _ _ _ (u8 "%PDF")); [split; reflexivity|split; reflexivity|reflexivity|reflexivity|reflexivity|]. intros pages H. exact (c82_clean _ pages H).
  - eapply ag_none; [split; reflexivity|reflexivity|reflexivity].
Qed.
Lemma c83_ready net miner : ready (c82_setup net miner) [(2020, 1); (2020, 2)] (cs_fs c76_start).
Proof. intros i [<-|[<-|[]]]; (split; [split; [discriminate|repeat constructor]|split; reflexivity]). Qed.
Example C83_ex : let su := c82_setup c76_net c76_miner in let issues := [(2020, 1); (2020, 2)] in
  exists sy l, reaches su issues (at_start issues (cs_fs c76_start)) sy /\ Permutation (sy_urls sy) [get_url 2020 1; get_url 2020 2] /\
    sy_workers sy = [((2020, 1), Finished (Ok (map c76_page c76_css))); ((2020, 2), l)] /\ l = Finished (Err OSError) /\ stored su (env_of c76_net c76_miner []) (sy_fs sy) (2020, 1).
Proof.
  intros su issues. destruct (proj2 (C83_ends su) issues (at_start issues (cs_fs c76_start))) as (sy & R & Fin).
  assert (Nd : NoDup issues) by (repeat constructor; [intros [X|[]]; discriminate|intros []]).
  destruct (C83_workers su (env_of c76_net c76_miner []) issues (cs_fs c76_start) sy example_codec Nd c83_agrees (c83_ready _ _) R) as (Ei & Ok & _ & l & Eu & Nl & Il & Al).
  destruct (sy_workers sy) as [|[i1 p1] [|[i2 p2] [|w ws]]] eqn:Ew; [discriminate|discriminate| |discriminate]. apply (f_equal (fun x => (hd (0, 0) x, hd (0, 0) (tl x)))) in Ei. cbn [map fst hd tl issues] in Ei.
  assert (E1 : i1 = (2020, 1)) by exact (f_equal fst Ei). assert (E2 : i2 = (2020, 2)) by exact (f_equal snd Ei). subst i1 i2. clear Ei.
  destruct (Fin _ (or_introl eq_refl)) as (r1 & F1). destruct (Fin _ (or_intror (or_introl eq_refl))) as (r2 & F2). cbn [snd] in F1, F2. subst p1 p2.
  destruct (Ok _ _ (or_introl eq_refl)) as [T1 S1]. destruct (Ok _ _ (or_intror (or_introl eq_refl))) as [T2 _].
  assert (R1 : r1 = PyBase.Ok (map c76_page c76_css)).
  { destruct T1 as [(x & D & _)|(f & D & T)]; [discriminate|]. apply (f_equal g_items) in D. change (g_items (e_download (env_of c76_net c76_miner []) (fst (2020, 1)) (snd (2020, 1)))) with [mk_pdf (u8 "%PDF") (issue_cache_id 2020 1)] in D.
    assert (f = mk_pdf (u8 "%PDF") (issue_cache_id 2020 1)) as -> by (apply (f_equal (hd f)) in D; cbn [hd g_items] in D; symmetry; exact D).
    unfold env_of in T. cbn [e_lines pf_bytes] in T. rewrite (C76_pages c76_miner (u8 "%PDF") c76_css (map c76_page c76_css) eq_refl c76_drawn_pages) in T. cbn [one] in T.
    destruct T as [(x & L & _)|(pages & L & ->)]; [discriminate|]. apply (f_equal g_items) in L. cbn [g_items] in L. f_equal. symmetry. exact (f_equal (hd pages) L). }
  assert (R2 : r2 = Err OSError).
  { destruct T2 as [(x & D & ->)|(f & D & _)]; [|discriminate]. f_equal. symmetry. exact (f_equal (fun g => match g_end g with Some y => y | None => x end) D). }
  exists sy, (Finished r2). split; [exact R|]. split; [|split; [rewrite Ew, R1; reflexivity|split; [rewrite R2; reflexivity|exact (S1 _ R1)]]].
  rewrite Eu. change [get_url 2020 1; get_url 2020 2] with (map issue_url issues). apply Permutation_map. apply NoDup_Permutation; [exact Nl|exact Nd|]. intros i. split; [intros I; exact (proj1 (Il i I))|].
  intros [<-|[<-|[]]]; [eapply Al; [left; reflexivity|reflexivity]|eapply Al; [right; left; reflexivity|reflexivity]].
Qed.

(* One issue asked for twice: a worker may read the file that the other is writing.  What it has then is not what there is. *)
Definition c83_miner (b : bytes) : res (list event) := match b with [] => Err ValueError | _ => Ok [] end.
Definition c83_net (url : pystr) : res bytes := Ok (u8 "%PDF").
Lemma reaches_cons su issues a b c : moves su issues a b -> reaches su issues b c -> reaches su issues a c.
Proof. intros M. apply reaches_trans. eapply re_next; [apply re_start|exact M]. Qed.
Theorem C83_twice_refuted : ~ (forall su e issues s sy i r, codec (su_write su) (su_read su) ->
  (forall i, In i issues -> agrees su e s i) -> ready su issues s -> reaches su issues (at_start issues s) sy -> In (i, Finished r) (sy_workers sy) -> told e i r).
Proof.
  intros H. set (su := c82_setup c83_net c83_miner). set (e := env_of c83_net c83_miner []). set (i := (2020, 1)). set (s := cs_fs c76_start).
  assert (R : exists s' u, reaches su [i; i] (at_start [i; i] s) (mk_system s' [(i, Writing (u8 "%PDF") 0); (i, Finished (Err ValueError))] u)).
  { eexists. eexists.
    eapply reaches_cons; [apply (mv_worker su [i; i] s i AtStart [] [(i, AtStart)] []); reflexivity|]. cbn [app].
    eapply reaches_cons; [apply (mv_worker su [i; i] _ i _ [] [(i, AtStart)]); reflexivity|]. cbn [app].
    eapply reaches_cons; [apply (mv_worker su [i; i] _ i _ [] [(i, AtStart)]); reflexivity|]. cbn [app].
    eapply reaches_cons; [apply (mv_worker su [i; i] _ i _ [] [(i, AtStart)]); reflexivity|]. cbn [app].
    eapply reaches_cons; [apply (mv_worker su [i; i] _ i _ [(i, Writing (u8 "%PDF") 0)] []); reflexivity|]. cbn [app].
    eapply reaches_cons; [apply (mv_worker su [i; i] _ i _ [(i, Writing (u8 "%PDF") 0)] []); reflexivity|]. cbn [app].
    eapply reaches_cons; [apply (mv_worker su [i; i] _ i _ [(i, Writing (u8 "%PDF") 0)] []); reflexivity|]. cbn [app].
    eapply reaches_cons; [apply (mv_worker su [i; i] _ i _ [(i, Writing (u8 "%PDF") 0)] []); reflexivity|]. cbn [app].
    apply re_start. }
  destruct R as (s' & u & R).
  assert (T : told e i (Err ValueError)).
  { eapply (H su e [i; i] s _ i (Err ValueError)); [exact example_codec| | |exact R|right; left; reflexivity].
    - intros j [<-|[<-|[]]]; (eapply (ag_net su e s i (u8 "%PDF")); [split; reflexivity|split; reflexivity|reflexivity|reflexivity|reflexivity|]); intros pages X; vm_compute in X; injection X as <-; constructor.
    - intros j [<-|[<-|[]]]; (split; [split; [discriminate|repeat constructor]|split; reflexivity]). }
  destruct T as [(x & D & _)|(f & D & [(x & L & _)|(pages & _ & X)])]; [discriminate| |discriminate].
  apply (f_equal g_items) in D. change (g_items (e_download e (fst i) (snd i))) with [mk_pdf (u8 "%PDF") (issue_cache_id 2020 1)] in D. assert (f = mk_pdf (u8 "%PDF") (issue_cache_id 2020 1)) as -> by (apply (f_equal (hd f)) in D; cbn [hd g_items] in D; symmetry; exact D).
  vm_compute in L. discriminate.
Qed.
Print Assumptions C83_twice_refuted.
(* It may even be that all workers finish without an error, and what they have of the issue, and the cache keeps, is wrong:
   here an empty file is one without pages for the PDF library. *)
Fixpoint c83_turns (su : setup) (l : list nat) (sy : system) : system :=
  match l with
  | [] => sy
  | n :: t =>
      c83_turns su t (match nth_error (sy_workers sy) n with
                      | Some (i, ph) => let '(ph', s', u) := worker_step su i ph (sy_fs sy) in mk_system s' (firstn n (sy_workers sy) ++ (i, ph') :: skipn (S n) (sy_workers sy)) (sy_urls sy ++ u)
                      | None => sy
                      end)
  end.
Lemma c83_turns_reach su issues l : forall sy, reaches su issues sy (c83_turns su l sy).
Proof.
  induction l as [|n l IH]; intros sy; [apply re_start|]. cbn [c83_turns]. destruct (nth_error (sy_workers sy) n) as [[i ph]|] eqn:E; [|apply IH]. destruct (worker_step su i ph (sy_fs sy)) as [[ph' s'] u] eqn:W.
  eapply reaches_cons; [|apply IH]. destruct sy as [s ws urls]. cbn [sy_fs sy_workers sy_urls] in *. assert (X : ws = firstn n ws ++ (i, ph) :: skipn (S n) ws).
  { clear - E. revert n E. induction ws as [|w ws IH]; intros [|n] E; try discriminate; [injection E as ->; reflexivity|]. cbn [firstn app]. f_equal. exact (IH n E). }
  rewrite X at 1. apply mv_worker. exact W.
Qed.
Definition c83_lenient (b : bytes) : res (list event) := match b with [] => Ok [] | _ => c76_miner b end.
Definition c83_setup : setup := c82_setup c83_net c83_lenient.
Definition c83_end : system := c83_turns c83_setup (repeat 0%nat 4 ++ repeat 1%nat 200 ++ repeat 0%nat 200) (at_start [(2020, 1); (2020, 1)] (cs_fs c76_start)).
Theorem C83_silent_refuted : ~ (forall su e issues s sy i r, codec (su_write su) (su_read su) ->
  (forall i, In i issues -> agrees su e s i) -> ready su issues s -> reaches su issues (at_start issues s) sy ->
  (forall w, In w (sy_workers sy) -> exists pages, snd w = Finished (Ok pages)) -> In (i, Finished r) (sy_workers sy) -> told e i r).
Proof.
  intros H. set (e := env_of c83_net c83_lenient []). set (i := (2020, 1)). set (s := cs_fs c76_start).
  assert (W : sy_workers c83_end = [(i, Finished (Ok [])); (i, Finished (Ok []))]) by (vm_compute; reflexivity).
  assert (T : told e i (Ok [])).
  { apply (H c83_setup e [i; i] s c83_end i (Ok [])); [exact example_codec| | |apply c83_turns_reach| |rewrite W; left; reflexivity].
    - intros j [<-|[<-|[]]]; (eapply (ag_net c83_setup e s i (u8 "%PDF")); [split; reflexivity|split; reflexivity|reflexivity|reflexivity|reflexivity|]); intros pages X; exact (c82_clean (u8 "%PDF") pages X).
    - intros j [<-|[<-|[]]]; (split; [split; [discriminate|repeat constructor]|split; reflexivity]).
    - rewrite W. intros w [<-|[<-|[]]]; exists []; reflexivity. }
  destruct T as [(x & _ & X)|(f & D & [(x & _ & X)|(pages & L & X)])]; [discriminate|discriminate|].
  apply (f_equal g_items) in D. change (g_items (e_download e (fst i) (snd i))) with [mk_pdf (u8 "%PDF") (issue_cache_id 2020 1)] in D. assert (f = mk_pdf (u8 "%PDF") (issue_cache_id 2020 1)) as -> by (apply (f_equal (hd f)) in D; cbn [hd g_items] in D; symmetry; exact D).
  assert (pages = []) as -> by (apply (f_equal (fun r => match r with Ok p => p | Err _ => [] end)) in X; symmetry; exact X). vm_compute in L. discriminate.
Qed.
Print Assumptions C83_silent_refuted.
