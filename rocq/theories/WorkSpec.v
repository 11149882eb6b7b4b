(* What worker processes do that use the cache at the same time (C83). *)
From Verif Require Import PyBase IdModel LineModel FixupModel PdfModel GazModel D2oModel D2oHun CacheModel CacheSpec ExtModel PipeModel CliModel RunModel RunSpec WorkModel.
Local Open Scope Z_scope.

(* a disk, the workers with their issues, and the addresses that were opened *)
Record system := mk_system { sy_fs : fs; sy_workers : list ((Z * Z) * phase); sy_urls : list pystr }.
(* What others do, like writing the output: anything but to use the paths of the cache, or to remove directories *)
Definition elsewhere (cache : pystr) (issues : list (Z * Z)) (s s' : fs) : Prop :=
  (forall p, cache_file cache issues p \/ cache_dir cache issues p -> fs_file s' p = fs_file s p) /\
  (forall q, fs_dir s q = true -> fs_dir s' q = true) /\ (forall p, cache_file cache issues p -> fs_dir s' p = fs_dir s p).
(* one worker makes a step, or someone else does something *)
Inductive moves (su : setup) (issues : list (Z * Z)) : system -> system -> Prop :=
| mv_worker s i ph l r urls ph' s' u : worker_step su i ph s = (ph', s', u) -> moves su issues (mk_system s (l ++ (i, ph) :: r) urls) (mk_system s' (l ++ (i, ph') :: r) (urls ++ u))
| mv_other s ws urls s' : elsewhere (su_cache su) issues s s' -> moves su issues (mk_system s ws urls) (mk_system s' ws urls).
Inductive reaches (su : setup) (issues : list (Z * Z)) (a : system) : system -> Prop :=
| re_start : reaches su issues a a
| re_next b c : reaches su issues a b -> moves su issues b c -> reaches su issues a c.
Definition at_start (issues : list (Z * Z)) (s : fs) : system := mk_system s (map (fun i => (i, AtStart)) issues) [].

(* what e has of an issue: its pages, or the error on the way to them *)
Definition told (e : env) (i : Z * Z) (r : res (list page)) : Prop :=
  (exists x, e_download e (fst i) (snd i) = mk_gen [] (Some x) /\ r = Err x) \/
  (exists f, e_download e (fst i) (snd i) = mk_gen [f] None /\
    ((exists x, e_lines e f = mk_gen [] (Some x) /\ r = Err x) \/ (exists pages, e_lines e f = mk_gen [pages] None /\ r = Ok pages))).
(* no file is in the way of the directories of the cache, and no directory in the way of its files *)
Definition ready (su : setup) (issues : list (Z * Z)) (s : fs) : Prop :=
  forall i, In i issues -> can_make s (path_dirname (issue_path (su_cache su) i)) /\ fs_dir s (issue_path (su_cache su) i) = false /\ fs_dir s (lines_path (su_cache su) i) = false.
(* a worker that has not finished comes from one phase to another *)
Definition comes_to (su : setup) (ph' ph : phase) : Prop := (forall r, ph <> Finished r) /\ exists i s s' u, worker_step su i ph s = (ph', s', u).
(* steps of one worker, with no one else there *)
Inductive alone (su : setup) (i : Z * Z) : phase -> fs -> list pystr -> phase -> fs -> Prop :=
| al_end ph s : alone su i ph s [] ph s
| al_next ph s ph1 s1 u urls ph2 s2 : worker_step su i ph s = (ph1, s1, u) -> alone su i ph1 s1 urls ph2 s2 -> alone su i ph s (u ++ urls) ph2 s2.
Definition same_fs (s s' : fs) : Prop := (forall p, fs_file s' p = fs_file s p) /\ (forall p, fs_dir s' p = fs_dir s p).
