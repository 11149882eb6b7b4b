(* C78: what the JSON files of acts look like. *)
From Coq Require Import Lia Floats.SpecFloat Permutation.
From Verif Require Import PyBase PyBaseFacts LineModel DateModel RefModel TreeModel TreeSpec D2oModel D2oSpec D2oHun D2oHunSpec P_D2o JsonSpec JsonProofs.
From Verif Require Import PdfModel CacheModel CacheSpec CacheProofs PipeModel PipeSpec TxtModel TxtSpec CliModel CliSpec IssueSpec IssueProofs.
From Verif Require GazModel P_Txt.
From Verif Require Import P_Issue.
Local Open Scope Z_scope.

(** C78: the data of any act has these keys in this order.  No condition: nothing that an act can hold stops it. *)
Theorem C78_act : forall a, to_dict hun_table (act_value a) (TClass (u8 "Act")) = Ok (act_json a).
Proof. exact act_dump. Qed.
Print Assumptions C78_act.
Theorem C78_law : forall identifier publication_date subject body,
  to_dict hun_table (raw_value identifier publication_date subject body) (TClass (u8 "MagyarKozlonyLawRawText")) = Ok (law_json identifier publication_date subject body).
Proof. exact law_dump. Qed.
Print Assumptions C78_law.
Theorem C78_pages : forall pages, to_dict hun_table (pdf_value pages) (TClass (u8 "PdfOfLines")) = Ok (pages_json pages).
Proof. exact pages_dump. Qed.
Print Assumptions C78_pages.
(* These are what is written to the files of acts and of laws, and to the cache. *)
Theorem C78_file : forall w, (forall a, json_file w (OAct a) = Ok (wr_dump w (act_json a))) /\
  (forall x, json_file w (ORaw x) = Ok (wr_dump w (law_json (GazModel.lw_identifier x) (GazModel.lw_date x) (GazModel.lw_subject x) (GazModel.lw_body x)))).
Proof. intros w. split; [intros a|intros x]; cbn [json_file]; [rewrite act_dump|rewrite law_dump]; reflexivity. Qed.
Print Assumptions C78_file.
Theorem C78_cache : forall dir miner write read f s pages, let p := path_join dir (pf_cache_id f ++ u8 ".parsed_v5.gz") in
  absent s p -> can_write s p -> parse_pdf miner (pf_bytes f) = Ok pages ->
  fs_file (final s (cached_pdf_parser (Some dir) miner write read f s)) p = Some (write (pages_json pages)).
Proof.
  intros dir miner write read f s pages p A W E. rewrite (parser_first dir f miner write read s pages _ A W E (pages_dump pages)).
  unfold final. cbn [o_states]. rewrite last_map_seq, firstn_all. apply set_same.
Qed.
Print Assumptions C78_cache.
(* The files that the program writes for issues printed as in C76 have this in them.  Nothing is assumed of how JSON is read. *)
Theorem C78_files : forall net miner fixups w a dir actss order s, splits (wr_wrapper w) ->
  ar_step a = full -> ar_format a = Json -> ar_output_dir a = Some dir -> Forall2 (served net miner fixups) (ar_issues a) actss -> Permutation (issues_of a) order ->
  NoDup (map act_identifier (concat actss)) -> can_make (cs_fs s) dir ->
  let target c := path_join dir (act_identifier c ++ u8 ".json") in
  (forall c, In c (concat actss) -> ~ In 47%N (act_identifier c) /\ fs_dir (cs_fs s) (target c) = false) ->
  exists fuel s', run (env_of net miner fixups) w a fuel order s = Some (s', None) /\ cs_stdout s' = cs_stdout s /\
    (forall c, In c (concat actss) -> asked a (act_identifier c) -> fs_file (cs_fs s') (target c) = Some (wr_dump w (act_json c))) /\
    (forall p, (forall c, In c (concat actss) -> asked a (act_identifier c) -> p <> target c) -> fs_file (cs_fs s') p = fs_file (cs_fs s) p).
Proof. exact files_exact. Qed.
Print Assumptions C78_files.
(* It is read back as an act that is equal, and if no right margin of a quoted line is 0, different acts have different data. *)
Theorem C78_read : forall a, writable a -> (forall l, line_in_act a l -> numbers l) ->
  exists v, to_object hun_table (act_json a) (TClass (u8 "Act")) = Ok v /\ py_eq hun_table (act_value a) v = true.
Proof.
  intros a W N. destruct (C42_act a W N) as (d & v & D & _ & O & E). rewrite act_dump in D. injection D as <-. exists v. split; [exact O|exact E].
Qed.
Print Assumptions C78_read.
Theorem C78_distinct : forall a b, writable a -> writable b -> real_specials a -> real_specials b ->
  (forall l, line_in_act a l -> with_margin l) -> (forall l, line_in_act b l -> with_margin l) -> act_json a = act_json b -> a = b.
Proof. intros a b Wa Wb Sa Sb Ma Mb E. apply C42_act_distinct; try assumption. rewrite !act_dump, E. reflexivity. Qed.
Print Assumptions C78_distinct.

(** Examples *)
(* the act of C42_act_ex *)
Example C78_ex : let str x := VStr x in
  act_json (c42_act (S754_finite false 3 0)) = VDict
    [(u8 "identifier", str (u8 "2020. évi I. törvény"));
     (u8 "publication_date", VDict [(u8 "year", VInt 2020); (u8 "month", VInt 1); (u8 "day", VInt 31)]);
     (u8 "subject", str (u8 "tárgy"));
     (u8 "preamble", str (u8 "preambulum"));
     (u8 "children", VList
       [ VDict [(u8 "identifier", str (u8 "1")); (u8 "title", str (u8 "Fejezet")); (u8 "__type__", str (u8 "Chapter"))];
         VDict [(u8 "identifier", str (u8 "1"));
                (u8 "children", VList [VDict
                  [(u8 "identifier", str (u8 "1")); (u8 "text", str (u8 "Hatályba lép."));
                   (u8 "act_id_abbreviations", VList []);
                   (u8 "outgoing_references", VList [VDict
                     [(u8 "start_pos", VInt 3); (u8 "end_pos", VInt 8);
                      (u8 "reference", VDict [(u8 "act", str (u8 "Ptk.")); (u8 "article", str (u8 "1")); (u8 "paragraph", VList [str (u8 "2"); str (u8 "4")])])]]);
                   (u8 "semantic_data", VList
                     [VDict [(u8 "position", VNone);
                             (u8 "date", VDict [(u8 "year", VInt 2020); (u8 "month", VInt 2); (u8 "day", VInt 29); (u8 "__type__", str (u8 "Date"))]);
                             (u8 "repeal_date", VDict [(u8 "year", VInt 2021); (u8 "month", VInt 1); (u8 "day", VInt 1)]);
                             (u8 "__type__", str (u8 "EnforcementDate"))];
                      VDict [(u8 "position", VDict
                               [(u8 "act", str (u8 "Ptk."));
                                (u8 "special", VDict [(u8 "position", str (u8 "AFTER")); (u8 "article_id", str (u8 "3"))]);
                                (u8 "__type__", str (u8 "StructuralReference"))]);
                             (u8 "pure_insertion", VBool true);
                             (u8 "__type__", str (u8 "BlockAmendment"))]])]]);
                (u8 "__type__", str (u8 "Article"))];
         VDict [(u8 "identifier", str (u8 "2"));
                (u8 "children", VList [VDict
                  [(u8 "intro", str (u8 "A Ptk.:"));
                   (u8 "children", VList [VDict
                     [(u8 "intro", str (u8 "(Lép helyébe)"));
                      (u8 "children", VList
                        [VDict [(u8 "identifier", str (u8 "2")); (u8 "title", str (u8 "Rész")); (u8 "special", VBool true); (u8 "__type__", str (u8 "Part"))];
                         VDict [(u8 "identifier", str (u8 "3")); (u8 "children", VList [VDict [(u8 "text", str (u8 "Új szöveg."))]]); (u8 "title", str (u8 "Cím"));
                                (u8 "__type__", str (u8 "Article"))]]);
                      (u8 "__type__", str (u8 "BlockAmendmentContainer"))]])]]);
                (u8 "__type__", str (u8 "Article"))];
         VDict [(u8 "identifier", str (u8 "3"));
                (u8 "children", VList [VDict
                  [(u8 "intro", str (u8 "Így:"));
                   (u8 "children", VList [VDict
                     [(u8 "lines", VList [VDict [(u8 "_parts", VList [VDict [(u8 "dx", VFloat (S754_finite false 5 1)); (u8 "content", str (u8 "„Idézet”")); (u8 "bold", VBool true)]]);
                                                 (u8 "margin_right", VFloat (S754_finite false 3 0))]]);
                      (u8 "__type__", str (u8 "QuotedBlock"))]]);
                   (u8 "wrap_up", str (u8 "vége"))]]);
                (u8 "__type__", str (u8 "Article"))] ])].
Proof. vm_compute. reflexivity. Qed.
Example C78_pages_ex : pages_json [[EMPTY_LINE]; []] = VDict [(u8 "pages", VList
  [VDict [(u8 "lines", VList [VDict [(u8 "_parts", VList [])]])]; VDict [(u8 "lines", VList [])]])].
Proof. vm_compute. reflexivity. Qed.
(* the issue of C76_ex *)
Example C78_files_ex : exists fuel s', run (env_of c76_net c76_miner []) c76_writers c76_args fuel [ODownload 2020 1] c76_start = Some (s', None) /\
  fs_file (cs_fs s') (u8 "out/2020. évi I. törvény.json") = Some (wr_dump c76_writers (act_json c76_act)).
Proof.
  destruct (C78_files c76_net c76_miner [] c76_writers c76_args (u8 "out") [[c76_act]] [ODownload 2020 1] c76_start) as (fuel & s' & R & _ & F & _);
    [exact P_Txt.c50_splits|reflexivity|reflexivity|reflexivity|constructor; [exact c76_served|constructor]|apply Permutation_refl| | | |].
  - cbn. repeat constructor. intros [].
  - split; [discriminate|]. repeat constructor.
  - intros c [<-|[]]. split; [|reflexivity]. intros I. vm_compute in I. repeat (destruct I as [I|I]; [discriminate|]). destruct I.
  - exists fuel, s'. split; [exact R|]. apply (F c76_act (or_introl eq_refl)). right. right. discriminate.
Qed.
