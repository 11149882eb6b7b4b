(* What a run with the cache does (C82): the same as one without it. *)
From Verif Require Import PyBase IdModel LineModel DateModel TreeModel SemModel FixupModel PegModel PdfModel GazModel D2oModel D2oHun JsonSpec CacheModel CacheSpec ExtModel HtmlModel TxtModel PipeModel CliModel CliSpec RunModel.
Local Open Scope Z_scope.

(** * Paths *)

(* the two files of an issue in the cache, and the directories above them *)
Definition issue_path (cache : pystr) (i : Z * Z) : pystr := path_join cache (issue_cache_id (fst i) (snd i)).
Definition lines_path (cache : pystr) (i : Z * Z) : pystr := path_join cache (issue_cache_id (fst i) (snd i) ++ u8 ".parsed_v5.gz").
Definition above (d : pystr) : list pystr := d :: path_parents [] d.
Definition issue_dirs (cache : pystr) (i : Z * Z) : list pystr := above (path_dirname (issue_path cache i)).
Definition issue_url (i : Z * Z) : pystr := get_url (fst i) (snd i).
Definition cache_file (cache : pystr) (issues : list (Z * Z)) (p : pystr) : Prop := exists i, In i issues /\ (p = issue_path cache i \/ p = lines_path cache i).
Definition cache_dir (cache : pystr) (issues : list (Z * Z)) (p : pystr) : Prop := In p (above cache) \/ exists i, In i issues /\ In p (issue_dirs cache i).

(** * The cache *)

(* no margin is -0.0, which is written like 0.0 *)
Definition clean_pages (pages : list page) : Prop := Forall (Forall (fun l => l_margin_right l <> SpecFloat.S754_zero true)) pages.
(* both files of an issue are there, and the second one has the lines of the first *)
Definition stored (su : setup) (e : env) (s : fs) (i : Z * Z) : Prop :=
  exists b t pages, let f := mk_pdf b (issue_cache_id (fst i) (snd i)) in
    e_download e (fst i) (snd i) = mk_gen [f] None /\ e_lines e f = mk_gen [pages] None /\ clean_pages pages /\
    fs_file s (issue_path (su_cache su) i) = Some b /\ fs_file s (lines_path (su_cache su) i) = Some t /\ su_read su t = Ok (pages_json pages).
(* [agrees su e s i]: what e has of the issue is what there is in the cache or in the net *)
Inductive agrees (su : setup) (e : env) (s : fs) (i : Z * Z) : Prop :=
| ag_none x : absent s (issue_path (su_cache su) i) -> su_net su (issue_url i) = Err x -> e_download e (fst i) (snd i) = mk_gen [] (Some x) -> agrees su e s i
| ag_net b (f := mk_pdf b (issue_cache_id (fst i) (snd i))) : absent s (issue_path (su_cache su) i) -> absent s (lines_path (su_cache su) i) ->
    su_net su (issue_url i) = Ok b -> e_download e (fst i) (snd i) = mk_gen [f] None -> e_lines e f = one (fun p => p) (parse_pdf (su_miner su) b) ->
    (forall pages, parse_pdf (su_miner su) b = Ok pages -> clean_pages pages) -> agrees su e s i
| ag_file b (f := mk_pdf b (issue_cache_id (fst i) (snd i))) : fs_file s (issue_path (su_cache su) i) = Some b -> absent s (lines_path (su_cache su) i) ->
    fs_dir s (path_dirname (issue_path (su_cache su) i)) = true -> e_download e (fst i) (snd i) = mk_gen [f] None -> e_lines e f = one (fun p => p) (parse_pdf (su_miner su) b) ->
    (forall pages, parse_pdf (su_miner su) b = Ok pages -> clean_pages pages) -> agrees su e s i
| ag_stored : stored su e s i -> agrees su e s i.

(* There is room for the cache and for the output: no file is in the way of a directory, no directory in the way of a file,
   and the two do not use the same paths *)
Definition target (a : args) (dir : pystr) (o : obj) : pystr := path_join dir (identifier_of (the_act o) ++ u8 "." ++ format_name (ar_format a)).
Record room (su : setup) (a : args) (s : fs) (os : list obj) : Prop := mk_room {
  rm_cache : can_make s (su_cache su);
  rm_dirs : forall i, In i (ar_issues a) -> can_make s (path_dirname (issue_path (su_cache su) i));
  rm_files : forall p, cache_file (su_cache su) (ar_issues a) p -> fs_dir s p = false /\ forall dir, ar_output_dir a = Some dir -> ~ In p (above dir);
  rm_output : forall dir o, ar_output_dir a = Some dir -> In o os ->
    ~ In 47%N (identifier_of (the_act o)) /\ ~ cache_file (su_cache su) (ar_issues a) (target a dir o) /\ ~ cache_dir (su_cache su) (ar_issues a) (target a dir o)
}.
(* the work is done in one process *)
Definition one_process (a : args) : Prop := ar_workers a <= 1 \/ (List.length (ar_issues a) <= 1)%nat.
(* only the net and the miner may be different *)
Definition same_disk (su su' : setup) : Prop :=
  su_cache su' = su_cache su /\ su_write su' = su_write su /\ su_read su' = su_read su /\ su_fixups su' = su_fixups su /\ su_writers su' = su_writers su.
