(* Model of worker processes that use the cache at the same time: cache.py, and the first two extractors, in steps that the
   other processes can come between. *)
From Verif Require Import PyBase IdModel LineModel FixupModel PdfModel GazModel D2oModel D2oHun CacheModel ExtModel PipeModel CliModel RunModel.
Local Open Scope Z_scope.

(* Where a worker is with its issue.  The first eight are in kozlonyok_hu_downloader.py:38-47: *)
Inductive phase :=
(* before cache_object.exists() *)
| AtStart
(* before urlopen(...).read() *)
| AtNet
(* in write_bytes: before makedirs, before open, with k bytes written *)
| AtDirs (data : bytes)
| AtOpen (data : bytes)
| Writing (data : bytes) (k : nat)
(* before the file is opened and read (file.py:19-22) *)
| AtFile
(* pdf.py:250-260: before exists(), before read_json(), before the parser *)
| AtLines (data : bytes)
| AtLoad
| AtParse (data : bytes)
(* in write_json *)
| AtLinesOpen (x : value) (pages : list page)
| WritingLines (x : value) (pages : list page) (k : nat)
| Finished (r : res (list page)).
Definition no_pages {A} (o : option A) : res A := match o with Some a => Ok a | None => Err TypeError end.

(* one byte of a file is written, at its place *)
Definition put_byte (k : nat) (c : N) (b : bytes) : bytes := firstn k b ++ repeat 0%N (k - List.length b) ++ [c] ++ skipn (S k) b.
Definition write_at (p : pystr) (k : nat) (c : N) (s : fs) : fs := set_file p (put_byte k c (match fs_file s p with Some b => b | None => [] end)) s.
Definition is_there (p : pystr) (s : fs) : bool := match fs_file s p with Some _ => true | None => fs_dir s p end.
Definition can_open (p : pystr) (s : fs) : bool := (match path_dirname p with [] => true | _ => fs_dir s (path_dirname p) end) && negb (fs_dir s p).

(* one step: where the worker is then, the disk, and the address that was opened, if any *)
Definition worker_step (su : setup) (i : Z * Z) (ph : phase) (s : fs) : phase * fs * list pystr :=
  let p := path_join (su_cache su) (issue_cache_id (fst i) (snd i)) in
  let q := path_join (su_cache su) (issue_cache_id (fst i) (snd i) ++ u8 ".parsed_v5.gz") in
  let url := get_url (fst i) (snd i) in
  match ph with
  | AtStart => (if is_there p s then AtFile else AtNet, s, [])
  | AtNet => (match su_net su url with Ok data => AtDirs data | Err x => Finished (Err x) end, s, [url])
  | AtDirs data =>
      let o := io_makedirs (path_dirname p) s in
      (match o_res o with Ok _ => AtOpen data | Err x => Finished (Err x) end, final s o, [])
  | AtOpen data => if can_open p s then (Writing data 0, set_file p [] s, []) else (Finished (Err OSError), s, [])
  | Writing data k => match nth_error data k with Some c => (Writing data (S k), write_at p k c s, []) | None => (AtFile, s, []) end
  | AtFile => (match fs_file s p with Some b => AtLines b | None => Finished (Err OSError) end, s, [])
  | AtLines data => (if is_there q s then AtLoad else AtParse data, s, [])
  | AtLoad =>
      (Finished (match fs_file s q with
                 | Some t => x <- su_read su t ;; v <- to_object hun_table x PDF_TYPE ;; no_pages (pages_of v)
                 | None => Err OSError
                 end), s, [])
  | AtParse data =>
      (match (pages <- parse_pdf (su_miner su) data ;; x <- to_dict hun_table (pdf_value pages) PDF_TYPE ;; Ok (x, pages)) with
       | Ok (x, pages) => AtLinesOpen x pages
       | Err x => Finished (Err x)
       end, s, [])
  | AtLinesOpen x pages => if can_open q s then (WritingLines x pages 0, set_file q [] s, []) else (Finished (Err OSError), s, [])
  | WritingLines x pages k =>
      match nth_error (su_write su x) k with
      | Some c => (WritingLines x pages (S k), write_at q k c s, [])
      | None => (Finished (no_pages (pages_of (pdf_value pages))), s, [])
      end
  | Finished r => (Finished r, s, [])
  end.

(* all.py:35-37: what a worker sends back of its issue, after the steps that use files *)
Definition worker_result (su : setup) (classes : list cls) (fuel : nat) (r : res (list page)) : option (res (list obj)) :=
  match r with
  | Err x => Some (Err x)
  | Ok pages => job (hun_world (rest_env (su_fixups su))) classes fuel (OPages pages)
  end.
(* kozlonyok_hu_downloader.py:38-47 and pdf.py:250-260 with no one in between (CacheModel) *)
Definition pages_with_files (su : setup) (i : Z * Z) : io (list page) :=
  f <~ download_issue (Some (su_cache su)) (su_net su) (fst i) (snd i) ;;
  v <~ cached_pdf_parser (Some (su_cache su)) (su_miner su) (su_write su) (su_read su) f ;;
  io_ret (no_pages (pages_of v)).
