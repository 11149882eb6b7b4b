(* Model of hun_law/cli.py and hun_law/output/json.py. *)
From Verif Require Import PyBase IdModel LineModel DateModel RefModel TreeModel StructModel SemModel GazModel D2oModel D2oHun CacheModel ExtModel HtmlModel TxtModel PipeModel.
Local Open Scope Z_scope.

(* cli.py:57-59: str.split('/', 1) into two, and int() of both *)
Fixpoint split_slash (before s : pystr) : option (pystr * pystr) :=
  match s with
  | [] => None
  | c :: t => if N.eqb c 47 then Some (before, t) else split_slash (before ++ [c]) t
  end.
Definition parse_issue (s : pystr) : res (Z * Z) :=
  match split_slash [] s with
  | None => Err ValueError
  | Some (year, act) => y <- py_int year ;; a <- py_int act ;; Ok (y, a)
  end.

(* cli.py:41-46 *)
Inductive extraction_step := raw_act | structure_only | ba_only | full.
Definition output_class (s : extraction_step) : cls := match s with full => CAct | structure_only => CStruct | ba_only => CBlock | raw_act => CRaw end.
(* cli.py:50-53 *)
Inductive output_format := Txt | Json | Html.
Definition format_name (f : output_format) : pystr := match f with Txt => u8 "txt" | Json => u8 "json" | Html => u8 "html" end.
(* cli.py:48-86: the arguments, as argparse returns them *)
Record args := mk_args {
  ar_format : output_format;
  ar_issues : list (Z * Z);
  ar_output_dir : option pystr;
  ar_single_act : option pystr;
  ar_step : extraction_step;
  ar_workers : Z
}.

(* What is not modelled of the writers: how textwrap splits texts (TxtModel), the text that json.dump makes of
   a value, and what is in the file already when one of them fails. *)
Record writers := mk_writers { wr_wrapper : wrapper; wr_dump : value -> pystr; wr_partial : output_format -> obj -> pystr }.
(* json.py:23-29.  type(act) is Act or MagyarKozlonyLawRawText here. *)
Definition json_file (w : writers) (o : obj) : res pystr :=
  match o with
  | OAct a => d <- to_dict hun_table (act_value a) (TClass (u8 "Act")) ;; Ok (wr_dump w d)
  | ORaw x => d <- to_dict hun_table (raw_value (lw_identifier x) (lw_date x) (lw_subject x) (lw_body x)) (TClass (u8 "MagyarKozlonyLawRawText")) ;; Ok (wr_dump w d)
  | _ => Err TypeError
  end.
(* txt.py:129-136, with the default indent and width *)
Definition txt_output (w : writers) (o : obj) : res output :=
  match o with
  | OAct a => txt_act (wr_wrapper w) 90 [] a
  | ORaw x => txt_raw [] x
  | _ => Err TypeError
  end.
(* cli.py:120-132: what is written to the file, and printed besides *)
Definition output_fn (w : writers) (f : output_format) (o : obj) : res (pystr * pystr) :=
  match f with
  | Txt => t <- txt_output w o ;; Ok (printed true t, printed false t)
  | Json => t <- json_file w o ;; Ok (t, [])
  | Html => match o with OAct a => t <- html_file a ;; Ok (t, []) | _ => Err TypeError end
  end.

(* the files and what was printed; files hold characters here: the encoding is not modelled *)
Record cli_state := mk_cli { cs_fs : fs; cs_stdout : pystr }.
(* cli.py:103-104 *)
Definition the_act (o : obj) : obj := match o with OStruct a | OBlock a => OAct a | _ => o end.
Definition identifier_of (o : obj) : pystr := match o with OAct a => act_identifier a | ORaw x => lw_identifier x | _ => [] end.
(* cli.py:105-108 *)
Definition skipped (a : args) (extracted : obj) : bool :=
  match ar_step a with
  | full | raw_act => match ar_single_act a with Some i => negb (str_eqb (identifier_of extracted) i) | None => false end
  | _ => false
  end.
(* cli.py:110-113 *)
Definition file_path (a : args) (dir : pystr) (extracted : obj) : pystr :=
  path_join dir (identifier_of extracted ++ u8 "." ++ format_name (ar_format a)).
(* cli.py:103-118: one turn of the loop, without the messages to the standard error *)
Definition output_one (w : writers) (a : args) (o : obj) (s : cli_state) : cli_state * option exn :=
  let extracted := the_act o in
  if skipped a extracted then (s, None)
  else
    match ar_output_dir a with
    | Some dir =>
        let p := file_path a dir extracted in
        let d := path_dirname p in
        if (match d with [] => true | _ => fs_dir (cs_fs s) d end) && negb (fs_dir (cs_fs s) p) then
          match output_fn w (ar_format a) extracted with
          | Ok (text, out) => (mk_cli (set_file p text (cs_fs s)) (cs_stdout s ++ out), None)
          | Err e => (mk_cli (set_file p (wr_partial w (ar_format a) extracted) (cs_fs s)) (cs_stdout s), Some e)
          end
        else (s, Some OSError)
    | None =>
        match output_fn w (ar_format a) extracted with
        | Ok (text, out) => (mk_cli (cs_fs s) (cs_stdout s ++ text ++ out), None)
        | Err e => (mk_cli (cs_fs s) (cs_stdout s ++ wr_partial w (ar_format a) extracted), Some e)
        end
    end.
Fixpoint output_all (w : writers) (a : args) (l : list obj) (s : cli_state) : cli_state * option exn :=
  match l with
  | [] => (s, None)
  | o :: t => match output_one w a o s with (s, None) => output_all w a t s | r => r end
  end.
(* cli.py:91-118, from the parsed arguments on; [extracted]: what do_extraction yields, and how it ends.  The
   files of the cache (lines 89 and 102) are not among those of the state. *)
Definition run_from (w : writers) (a : args) (extracted : gen obj) (s : cli_state) : cli_state * option exn :=
  match (match ar_output_dir a with
         | Some dir => let o := io_makedirs dir (cs_fs s) in match o_res o with Ok _ => Ok (final (cs_fs s) o) | Err e => Err e end
         | None => Ok (cs_fs s)
         end) with
  | Err e => (s, Some e)
  | Ok f =>
      match output_all w a (g_items extracted) (mk_cli f (cs_stdout s)) with
      | (s, None) => (s, g_end extracted)
      | r => r
      end
  end.
Definition issues_of (a : args) : list obj := map (fun p => ODownload (fst p) (snd p)) (ar_issues a).
Definition extracted_of (e : env) (a : args) (fuel : nat) (order : list obj) : option (gen obj) :=
  do_extraction (hun_world e) [output_class (ar_step a)] fuel (issues_of a) (ar_workers a) order.
Definition run (e : env) (w : writers) (a : args) (fuel : nat) (order : list obj) (s : cli_state) : option (cli_state * option exn) :=
  option_map (fun g => run_from w a g s) (extracted_of e a fuel order).
