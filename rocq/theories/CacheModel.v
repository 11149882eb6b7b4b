(* Model of hun_law/cache.py, extractors/file.py, extractors/kozlonyok_hu_downloader.py and of the
   cached parser of extractors/pdf.py, on a file system that may be left at any moment. *)
From Verif Require Import PyBase LineModel PdfModel D2oModel D2oHun.
Local Open Scope Z_scope.

(** * The file system and what runs on it *)

(* files with their contents, and directories, by path; paths are compared as strings *)
Notation bytes := (list N).
Record fs := mk_fs { fs_file : pystr -> option bytes; fs_dir : pystr -> bool }.
Definition set_file (p : pystr) (b : bytes) (s : fs) : fs := mk_fs (fun q => if str_eqb q p then Some b else fs_file s q) (fs_dir s).
Definition add_dirs (ps : list pystr) (s : fs) : fs := mk_fs (fs_file s) (fun q => mem_str q ps || fs_dir s q).

(* What a run does: the states of the file system it goes through, the addresses it downloads and
   what comes out.  A process that is killed leaves one of the states behind. *)
Record outcome (A : Type) := mk_out { o_states : list fs; o_urls : list pystr; o_res : res A }.
Arguments mk_out {A}. Arguments o_states {A}. Arguments o_urls {A}. Arguments o_res {A}.
Definition io (A : Type) := fs -> outcome A.
Definition final {A} (s : fs) (o : outcome A) : fs := last (o_states o) s.
Definition io_bind {A B} (m : io A) (f : A -> io B) : io B := fun s =>
  let o := m s in
  match o_res o with
  | Err e => mk_out (o_states o) (o_urls o) (Err e)
  | Ok a => let o' := f a (final s o) in mk_out (o_states o ++ o_states o') (o_urls o ++ o_urls o') (o_res o')
  end.
Definition io_ret {A} (r : res A) : io A := fun _ => mk_out [] [] r.
Notation "x <~ e ;; f" := (io_bind e (fun x => f)) (at level 61, e at next level, right associativity).

(** * os and os.path *)

(* os.path.join of two *)
Definition path_join (a b : pystr) : pystr :=
  if startswith (u8 "/") b then b
  else match rev a with
       | [] => b
       | c :: _ => if N.eqb c 47 then a ++ b else a ++ u8 "/" ++ b
       end.
(* os.path.dirname *)
Definition path_dirname (p : pystr) : pystr :=
  let head := rev (drop_while (fun c => negb (N.eqb c 47)) (rev p)) in
  if forallb (N.eqb 47) head then head else rev (drop_while (N.eqb 47) (rev head)).
(* the paths before each "/" of a path *)
Fixpoint path_parents (before p : pystr) : list pystr :=
  match p with
  | [] => []
  | c :: t => (if N.eqb c 47 then [before] else []) ++ path_parents (before ++ [c]) t
  end.
Definition io_exists (p : pystr) : io bool := fun s => mk_out [] [] (Ok (match fs_file s p with Some _ => true | None => fs_dir s p end)).
(* os.makedirs(p, exist_ok=True), the directories all at once *)
Definition io_makedirs (p : pystr) : io unit := fun s =>
  let ps := p :: path_parents [] p in
  if match p with [] => true | _ => false end || existsb (fun q => match fs_file s q with Some _ => true | None => false end) ps
  then mk_out [] [] (Err OSError)
  else mk_out [add_dirs ps s] [] (Ok tt).
(* open(p, 'wb') and one write of data: the file is emptied and then grows; where there is no "/" in
   p, it is in the current directory *)
Definition io_write (p : pystr) (data : bytes) : io unit := fun s =>
  let d := path_dirname p in
  if (match d with [] => true | _ => fs_dir s d end) && negb (fs_dir s p)
  then mk_out (map (fun k => set_file p (firstn k data) s) (seq 0 (S (List.length data)))) [] (Ok tt)
  else mk_out [] [] (Err OSError).
(* open(p, 'rb').read() *)
Definition io_read (p : pystr) : io bytes := fun s => mk_out [] [] (match fs_file s p with Some b => Ok b | None => Err OSError end).
(* urlopen(url).read(), from the net *)
Definition io_download (net : pystr -> res bytes) (url : pystr) : io bytes := fun _ => mk_out [] [url] (net url).

(** * cache.py *)

(* cache.py:26-30; [dir]: the global cache_dir_path *)
Definition cache_filename (dir : option pystr) (name : pystr) : res pystr :=
  match dir with None => Err RuntimeError | Some d => Ok (path_join d name) end.
(* cache.py:32-33 *)
Definition cache_exists (filename : pystr) : io bool := io_exists filename.
(* cache.py:35-38 *)
Definition write_bytes (filename : pystr) (data : bytes) : io unit := _ <~ io_makedirs (path_dirname filename) ;; io_write filename data.
(* cache.py:40-42; [read]: gunzip and json.load *)
Definition read_json (read : bytes -> res value) (filename : pystr) : io value := b <~ io_read filename ;; io_ret (read b).
(* cache.py:44-46; [write]: json.dump and gzip *)
Definition write_json (write : value -> bytes) (filename : pystr) (x : value) : io unit := io_write filename (write x).

(* cache.py:51-54; the size of a directory is not modelled *)
Definition size_on_disk (filename : pystr) : io nat := fun s => mk_out [] [] (Ok (match fs_file s filename with Some b => List.length b | None => 0%nat end)).
(* cache.py:57-60: what cache_dir_path becomes *)
Definition init_cache (dir : pystr) : io (option pystr) := _ <~ io_makedirs dir ;; io_ret (Ok (Some dir)).

(** * Extractors *)

(* file.py:19-22: the file is open, its contents are read later *)
Record pdf_file := mk_pdf { pf_bytes : bytes; pf_cache_id : pystr }.
Definition open_pdf (filename cache_id : pystr) : io pdf_file := b <~ io_read filename ;; io_ret (Ok (mk_pdf b cache_id)).

(* format(i, "0nd") *)
Definition zero_pad (n : nat) (i : Z) : pystr :=
  let s := str_of_int (Z.abs i) in
  if i <? 0 then u8 "-" ++ repeat 48%N (n - 1 - List.length s) ++ s else repeat 48%N (n - List.length s) ++ s.
(* kozlonyok_hu_downloader.py:27-35 *)
Definition get_url (year issue : Z) : pystr :=
  u8 "http://www.kozlonyok.hu/nkonline/MKPDF/hiteles/MK" ++ zero_pad 2 (year mod 100) ++ zero_pad 3 issue ++ u8 ".pdf".
(* kozlonyok_hu_downloader.py:40 *)
Definition issue_cache_id (year issue : Z) : pystr := u8 "MK/" ++ str_of_int year ++ u8 "/" ++ str_of_int issue ++ u8 ".pdf".
(* kozlonyok_hu_downloader.py:38-47 *)
Definition download_issue (dir : option pystr) (net : pystr -> res bytes) (year issue : Z) : io pdf_file :=
  let cache_id := issue_cache_id year issue in
  filename <~ io_ret (cache_filename dir cache_id) ;;
  there <~ cache_exists filename ;;
  _ <~ (if there then io_ret (Ok tt)
        else data <~ io_download net (get_url year issue) ;; write_bytes filename data) ;;
  open_pdf filename cache_id.

(* pdf.py:160-166, 241-245: from the file to its lines; [miner]: what pdfminer calls for the file *)
Definition parse_pdf (miner : bytes -> res (list event)) (b : bytes) : res (list (list line)) :=
  es <- miner b ;; pages <- extract_textboxes es ;; extract_lines pages.
Definition PDF_TYPE : ty := TClass (u8 "PdfOfLines").
(* pdf.py:250-260 *)
Definition cached_pdf_parser (dir : option pystr) (miner : bytes -> res (list event)) (write : value -> bytes) (read : bytes -> res value) (f : pdf_file) : io value :=
  filename <~ io_ret (cache_filename dir (pf_cache_id f ++ u8 ".parsed_v5.gz")) ;;
  there <~ cache_exists filename ;;
  if there then
    x <~ read_json read filename ;; io_ret (to_object hun_table x PDF_TYPE)
  else
    pages <~ io_ret (parse_pdf miner (pf_bytes f)) ;;
    x <~ io_ret (to_dict hun_table (pdf_value pages) PDF_TYPE) ;;
    _ <~ write_json write filename x ;;
    io_ret (Ok (pdf_value pages)).
