(* Model of a run of the program in one process, with the cache among its files: cli.py:88-118, all.py:40-50, and what the
   first two extractors do (CacheModel). *)
From Verif Require Import PyBase IdModel LineModel DateModel RefModel TreeModel StructModel SemModel FixupModel PegModel PdfModel GazModel D2oModel D2oHun CacheModel ExtModel HtmlModel TxtModel PipeModel CliModel.
Local Open Scope Z_scope.

(* What a run depends on: the directory of the cache (cli.py:89), the net, pdfminer, gzip with json (cache.py:40-46), the
   registered fixups and the writers. *)
Record setup := mk_setup {
  su_cache : pystr;
  su_net : pystr -> res bytes;
  su_miner : bytes -> res (list event);
  su_write : value -> bytes;
  su_read : bytes -> res value;
  su_fixups : registry;
  su_writers : writers
}.

(** * Lines from the cache *)

(* The pages that a PdfOfLines has (pdf.py:147-155, utils.py:26-38).  A margin that was left out is the int 0 (utils.py:38),
   which counts as the float. *)
Definition number_of (v : value) : option pyfloat := match v with VFloat f => Some f | VInt z => Some (f_of_Z z) | _ => None end.
Fixpoint every {A B} (f : A -> option B) (l : list A) : option (list B) :=
  match l with
  | [] => Some []
  | x :: t => match f x, every f t with Some y, Some r => Some (y :: r) | _, _ => None end
  end.
Definition part_of (v : value) : option part :=
  match v with
  | VObj _ [dx; VStr content; VBool bold] => match number_of dx with Some f => Some (mk_part f content bold) | None => None end
  | _ => None
  end.
Definition line_of_value (v : value) : option line :=
  match v with
  | VObj _ [VTuple parts; margin] => match every part_of parts, number_of margin with Some ps, Some m => Some (mk_line ps m) | _, _ => None end
  | _ => None
  end.
Definition page_of (v : value) : option page := match v with VObj _ [VList lines] => every line_of_value lines | _ => None end.
Definition pages_of (v : value) : option (list page) := match v with VObj _ [VList pages] => every page_of pages | _ => None end.

(** * Extraction *)

(* the extractors of the other classes do not use files or the net *)
Definition rest_env (fixups : registry) : env := mk_env (fun _ _ => mk_gen [] None) (fun _ => mk_gen [] None) fixups grammar_analyzer.
Definition extract_with_files (su : setup) (o : obj) : io (list obj) :=
  match o with
  (* kozlonyok_hu_downloader.py:38-47 *)
  | ODownload y i => f <~ download_issue (Some (su_cache su)) (su_net su) y i ;; io_ret (Ok [OFile f])
  (* pdf.py:250-260 *)
  | OFile f => v <~ cached_pdf_parser (Some (su_cache su)) (su_miner su) (su_write su) (su_read su) f ;;
      io_ret (match pages_of v with Some pages => Ok [OPages pages] | None => Err TypeError end)
  | _ => io_ret (extract_from (hun_world (rest_env (su_fixups su))) o)
  end.
(* all.py:40-50 and cli.py:102-118: what is yielded is written before the next object is taken.  The result has the
   addresses that were opened. *)
Fixpoint work_with_files (su : setup) (a : args) (fuel : nat) (stack : list obj) (s : cli_state) (urls : list pystr) : option (cli_state * list pystr * option exn) :=
  match fuel with
  | O => None
  | S n =>
      match stack with
      | [] => Some (s, urls, None)
      | o :: rest =>
          if is_result (hun_world (rest_env (su_fixups su))) [output_class (ar_step a)] o then
            match output_one (su_writers su) a o s with
            | (s, None) => work_with_files su a n rest s urls
            | (s, Some e) => Some (s, urls, Some e)
            end
          else
            let r := extract_with_files su o (cs_fs s) in
            let s := mk_cli (final (cs_fs s) r) (cs_stdout s) in
            match o_res r with
            | Err e => Some (s, urls ++ o_urls r, Some e)
            | Ok l => work_with_files su a n (rev l ++ rest) s (urls ++ o_urls r)
            end
      end
  end.
(* cli.py:88-118 from the parsed arguments on, if the work is done in one process (all.py:61-64) *)
Definition run_with_files (su : setup) (a : args) (fuel : nat) (s : cli_state) : option (cli_state * list pystr * option exn) :=
  let c := init_cache (su_cache su) (cs_fs s) in
  let s := mk_cli (final (cs_fs s) c) (cs_stdout s) in
  match o_res c with
  | Err e => Some (s, [], Some e)
  | Ok _ =>
      match (match ar_output_dir a with
             | Some dir => let o := io_makedirs dir (cs_fs s) in match o_res o with Ok _ => Ok (final (cs_fs s) o) | Err e => Err e end
             | None => Ok (cs_fs s)
             end) with
      | Err e => Some (s, [], Some e)
      | Ok f => work_with_files su a fuel (rev (issues_of a)) (mk_cli f (cs_stdout s)) []
      end
  end.
