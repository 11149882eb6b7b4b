(* C47: what is in the cache after any history, C51: names of issues and their addresses. *)
From Coq Require Import Lia.
From Coq Require Import ZifyBool ZifyNat ZifyN.
From Verif Require Import PyBase PyBaseFacts LineModel PdfModel D2oModel D2oSpec D2oHun D2oHunSpec CacheModel CacheSpec CacheProofs CacheExample.
Local Open Scope Z_scope.

(** * C47: cache contents *)

(* What was written is read, whatever is done with other names in between and wherever it is killed. *)
Theorem C47_history : forall write read dir name x s us t, codec write read -> plain x -> relative name ->
  o_res (write_json write (path_join dir name) x s) = Ok tt ->
  Forall (fun u => relative (use_name u) /\ use_name u <> name) us ->
  history write dir (final s (write_json write (path_join dir name) x s)) us t ->
  o_res (read_json read (path_join dir name) t) = Ok x.
Proof. exact read_back. Qed.
Print Assumptions C47_history.

(* The size of a file is that of the data written to it, and none where nothing is. *)
Theorem C47_size : forall p data s, (o_res (write_bytes p data s) = Ok tt -> o_res (size_on_disk p (final s (write_bytes p data s))) = Ok (List.length data)) /\
  (absent s p -> o_res (size_on_disk p s) = Ok 0%nat).
Proof. exact size_ok. Qed.
Print Assumptions C47_size.
Example C47_size_ex : let o := write_bytes (u8 "cache/MK/x") [1; 2; 3]%N (mk_fs (fun _ => None) (fun _ => false)) in
  o_res o = Ok tt /\ o_res (size_on_disk (u8 "cache/MK/x") (final (mk_fs (fun _ => None) (fun _ => false)) o)) = Ok 3%nat.
Proof. vm_compute. split; reflexivity. Qed.

(* The second parse of a file comes from the cache alone, and it equals the first. *)
Theorem C47_second_run : forall dir f miner write read s pages,
  let p := path_join dir (pf_cache_id f ++ u8 ".parsed_v5.gz") in
  codec write read -> absent s p -> can_write s p -> parse_pdf miner (pf_bytes f) = Ok pages -> Forall (Forall numbers) pages ->
  let o := cached_pdf_parser (Some dir) miner write read f s in
  o_res o = Ok (pdf_value pages) /\ o_urls o = [] /\
  exists v, py_eq hun_table (pdf_value pages) v = true /\ forall miner' write', cached_pdf_parser (Some dir) miner' write' read f (final s o) = mk_out [] [] (Ok v).
Proof. intros dir f miner write read s pages p. exact (second_run dir f miner write read s pages). Qed.
Print Assumptions C47_second_run.

(* A parse that is killed while it writes leaves a file that is an error for all later parses: nothing
   is computed again, and nothing is written. *)
Theorem C47_killed : forall dir f miner write read s pages s',
  let p := path_join dir (pf_cache_id f ++ u8 ".parsed_v5.gz") in
  codec write read -> absent s p -> can_write s p -> parse_pdf miner (pf_bytes f) = Ok pages -> Forall (Forall numbers) pages ->
  let o := cached_pdf_parser (Some dir) miner write read f s in
  In s' (o_states o) -> s' = final s o \/ exists e, forall miner' write', cached_pdf_parser (Some dir) miner' write' read f s' = mk_out [] [] (Err e).
Proof. intros dir f miner write read s pages s' p. exact (killed_run dir f miner write read s pages s'). Qed.
Print Assumptions C47_killed.

(* Where there is no directory for the parsed file, none is made: the parse is an error after all the
   work, and every time again. *)
Theorem C47_no_directory : forall dir f miner write read s pages,
  let p := path_join dir (pf_cache_id f ++ u8 ".parsed_v5.gz") in
  absent s p -> path_dirname p <> [] -> fs_dir s (path_dirname p) = false -> parse_pdf miner (pf_bytes f) = Ok pages -> Forall (Forall numbers) pages ->
  cached_pdf_parser (Some dir) miner write read f s = mk_out [] [] (Err OSError).
Proof. exact no_directory. Qed.
Print Assumptions C47_no_directory.

(* The example: a cache in /c, an issue with a page of one line. *)
Definition c47_font : font := mk_font (u8 "Times") (fun cid => if cid =? 65 then Some (u8 "A") else Some (u8 "b")) (fun _ => f_of_Z 1).
Definition c47_char (x cid : Z) : char := mk_char (f_of_Z 1) (f_of_Z x) (f_of_Z 100) c47_font (f_of_Z 10) (f_of_Z 1) cid.
Definition c47_miner (b : bytes) : res (list event) := match b with [] => Err ValueError | _ => Ok [BeginPage; RenderChar (c47_char 10 65); RenderChar (c47_char 20 66)] end.
Definition c47_dir := u8 "/c".
Definition c47_disk : fs := final (mk_fs (fun _ => None) (fun _ => false)) (init_cache c47_dir (mk_fs (fun _ => None) (fun _ => false))).
Definition c47_pdf := mk_pdf (u8 "%PDF") (u8 "a.pdf").
Definition c47_parsed := u8 "/c/a.pdf.parsed_v5.gz".
Definition c47_data : value := VDict [(u8 "a", VList [VInt (-5); VFloat (f_dyadic 3 (-1)); VNone]); (u8 "é", VBool true)].
Lemma c47_plain : plain c47_data.
Proof. repeat constructor; cbn; intuition discriminate. Qed.
Example C47_history_ex : codec enc example_read /\ plain c47_data /\ relative (u8 "a") /\ o_res (write_json enc (path_join c47_dir (u8 "a")) c47_data c47_disk) = Ok tt /\
  exists t, history enc c47_dir (final c47_disk (write_json enc (path_join c47_dir (u8 "a")) c47_data c47_disk)) [UJson (u8 "b") VNone; URead (u8 "c"); UBytes (u8 "d/e") (u8 "xyz"); UJson (u8 "b") (VInt 3)] t /\
    Forall (fun u => relative (use_name u) /\ use_name u <> u8 "a") [UJson (u8 "b") VNone; URead (u8 "c"); UBytes (u8 "d/e") (u8 "xyz"); UJson (u8 "b") (VInt 3)] /\
    (* the last two were killed *) fs_file t (u8 "/c/d/e") = Some (u8 "xy") /\ fs_file t (u8 "/c/b") = Some [2%N] /\ o_res (read_json example_read (path_join c47_dir (u8 "a")) t) = Ok c47_data.
Proof.
  split; [exact example_codec|]. split; [exact c47_plain|]. split; [reflexivity|]. split; [reflexivity|].
  set (s0 := final _ _). set (s1 := nth 1 (use_states enc c47_dir (UJson (u8 "b") VNone) s0) s0). set (s2 := nth 3 (use_states enc c47_dir (UBytes (u8 "d/e") (u8 "xyz")) s1) s1). set (s3 := nth 1 (use_states enc c47_dir (UJson (u8 "b") (VInt 3)) s2) s2).
  exists s3. split.
  - apply h_use with (s' := s1); [right; apply nth_In; vm_compute; lia|]. eapply h_use; [left; reflexivity|]. apply h_use with (s' := s2); [right; apply nth_In; vm_compute; lia|]. apply h_use with (s' := s3); [right; apply nth_In; vm_compute; lia|]. apply h_end.
  - split; [repeat constructor; discriminate|]. repeat split; vm_compute; reflexivity.
Qed.
Lemma c47_parse : { pages | parse_pdf c47_miner (u8 "%PDF") = Ok pages /\ Forall (Forall numbers) pages /\ map (map l_content) pages = [[u8 "AB"]] }.
Proof.
  destruct (parse_pdf c47_miner (u8 "%PDF")) as [pages|] eqn:E; vm_compute in E; [|discriminate]. exists pages. injection E as <-. split; [reflexivity|]. split; [|vm_compute; reflexivity]. repeat constructor; vm_compute; discriminate.
Qed.
Definition c47_pages := proj1_sig c47_parse.
Lemma c47_absent : absent c47_disk (path_join c47_dir (pf_cache_id c47_pdf ++ u8 ".parsed_v5.gz")) /\ can_write c47_disk (path_join c47_dir (pf_cache_id c47_pdf ++ u8 ".parsed_v5.gz")).
Proof. split; split; try reflexivity. right. vm_compute. reflexivity. Qed.
Example C47_second_run_ex : exists v, py_eq hun_table (pdf_value c47_pages) v = true /\
  o_res (cached_pdf_parser (Some c47_dir) (fun _ => Err ValueError) enc example_read c47_pdf (final c47_disk (cached_pdf_parser (Some c47_dir) c47_miner enc example_read c47_pdf c47_disk))) = Ok v.
Proof.
  destruct c47_absent as [A W]. destruct (proj2_sig c47_parse) as (E & N & _). destruct (C47_second_run c47_dir c47_pdf c47_miner enc example_read c47_disk c47_pages example_codec A W E N) as (_ & _ & v & Q & R).
  exists v. split; auto. now rewrite R.
Qed.
(* killed at the first byte: there is no way back *)
Theorem C47_crash_refuted : ~ (forall dir f miner write read s pages s',
  let p := path_join dir (pf_cache_id f ++ u8 ".parsed_v5.gz") in
  codec write read -> absent s p -> can_write s p -> parse_pdf miner (pf_bytes f) = Ok pages -> Forall (Forall numbers) pages ->
  In s' (o_states (cached_pdf_parser (Some dir) miner write read f s)) -> exists v, o_res (cached_pdf_parser (Some dir) miner write read f s') = Ok v).
Proof.
  intros H. destruct c47_absent as [A W]. destruct (proj2_sig c47_parse) as (E & N & _). specialize (H c47_dir c47_pdf c47_miner enc example_read c47_disk c47_pages (nth 1 (o_states (cached_pdf_parser (Some c47_dir) c47_miner enc example_read c47_pdf c47_disk)) c47_disk) example_codec A W E N).
  destruct H as (v & Ev); [apply nth_In; vm_compute; lia|]. vm_compute in Ev. discriminate.
Qed.
Print Assumptions C47_crash_refuted.
Example C47_no_directory_ex : o_res (cached_pdf_parser (Some c47_dir) c47_miner enc example_read (mk_pdf (u8 "%PDF") (u8 "x/a.pdf")) c47_disk) = Err OSError.
Proof. vm_compute. reflexivity. Qed.

(** * C51: issues *)

Theorem C51_ids : forall y i y' i', issue_cache_id y i = issue_cache_id y' i' -> y = y' /\ i = i'.
Proof. exact id_inj. Qed.
Print Assumptions C51_ids.
Example C51_ids_ex : issue_cache_id 2013 91 = u8 "MK/2013/91.pdf" /\ issue_cache_id 201 391 = u8 "MK/201/391.pdf".
Proof. split; reflexivity. Qed.
(* so the files of different issues differ, and so do downloaded and parsed files *)
Theorem C51_files : forall dir y i y' i',
  (path_join dir (issue_cache_id y i) = path_join dir (issue_cache_id y' i') -> y = y' /\ i = i') /\
  (path_join dir (issue_cache_id y i ++ u8 ".parsed_v5.gz") = path_join dir (issue_cache_id y' i' ++ u8 ".parsed_v5.gz") -> y = y' /\ i = i') /\
  path_join dir (issue_cache_id y i) <> path_join dir (issue_cache_id y' i' ++ u8 ".parsed_v5.gz").
Proof.
  intros dir y i y' i'. split; [|split].
  - intros E. apply C51_ids. apply (join_inj dir); [apply id_relative|apply id_relative|exact E].
  - intros E. apply C51_ids. apply join_inj in E; [|apply parsed_relative|apply parsed_relative]. now apply app_inv_tail in E.
  - intros E. apply join_inj in E; [|apply id_relative|apply parsed_relative]. exact (parsed_differs _ _ _ _ E).
Qed.
Print Assumptions C51_files.
Example C51_files_ex : path_join (u8 "/c") (issue_cache_id 2013 91) = u8 "/c/MK/2013/91.pdf" /\ path_join (u8 "/c/") (issue_cache_id 2013 91 ++ u8 ".parsed_v5.gz") = u8 "/c/MK/2013/91.pdf.parsed_v5.gz".
Proof. split; reflexivity. Qed.

Theorem C51_urls : forall y i y' i', get_url y i = get_url y' i' <-> y mod 100 = y' mod 100 /\ i = i'.
Proof. exact url_iff. Qed.
Print Assumptions C51_urls.
Example C51_urls_ex : get_url 2013 91 = u8 "http://www.kozlonyok.hu/nkonline/MKPDF/hiteles/MK13091.pdf" /\ get_url 2013 1091 = u8 "http://www.kozlonyok.hu/nkonline/MKPDF/hiteles/MK131091.pdf".
Proof. split; reflexivity. Qed.
Theorem C51_url_refuted : ~ (forall y i y' i', get_url y i = get_url y' i' -> issue_cache_id y i = issue_cache_id y' i').
Proof. intros H. specialize (H 2012 1 1912 1 eq_refl). discriminate. Qed.
Print Assumptions C51_url_refuted.

(* A download: only the issue's own address is opened and only its own file is written.  Later it is
   not downloaded again, and neither is one that was killed while its file was written: then the part
   that is there passes for the whole issue. *)
Theorem C51_download : forall dir y i net data s,
  let p := path_join dir (issue_cache_id y i) in
  absent s p -> can_make s (path_dirname p) -> net (get_url y i) = Ok data ->
  let o := download_issue (Some dir) net y i s in
  o_res o = Ok (mk_pdf data (issue_cache_id y i)) /\ o_urls o = [get_url y i] /\
  (forall net', download_issue (Some dir) net' y i (final s o) = mk_out [] [] (Ok (mk_pdf data (issue_cache_id y i)))) /\
  (forall s' q, In s' (o_states o) -> q <> p -> fs_file s' q = fs_file s q) /\
  (forall s', In s' (o_states o) -> fs_file s' p = None \/
     exists k, forall net', download_issue (Some dir) net' y i s' = mk_out [] [] (Ok (mk_pdf (firstn k data) (issue_cache_id y i)))).
Proof. exact downloaded. Qed.
Print Assumptions C51_download.
(* Download and parse: the second time, nothing is downloaded, parsed or written, and the result equals the first. *)
Theorem C51_issue_again : forall dir net miner write read y i data pages s,
  codec write read -> absent s (path_join dir (issue_cache_id y i)) -> absent s (path_join dir (issue_cache_id y i ++ u8 ".parsed_v5.gz")) ->
  can_make s (path_dirname (path_join dir (issue_cache_id y i))) ->
  net (get_url y i) = Ok data -> parse_pdf miner data = Ok pages -> Forall (Forall numbers) pages ->
  let run net miner := f <~ download_issue (Some dir) net y i ;; cached_pdf_parser (Some dir) miner write read f in
  let o := run net miner s in
  o_res o = Ok (pdf_value pages) /\ o_urls o = [get_url y i] /\
  exists v, py_eq hun_table (pdf_value pages) v = true /\ forall net' miner', run net' miner' (final s o) = mk_out [] [] (Ok v).
Proof. exact issue_again. Qed.
Print Assumptions C51_issue_again.
Definition c51_net (u : pystr) : res bytes := if str_eqb u (get_url 2013 91) then Ok (u8 "%PDF") else Err OSError.
Definition c51_run net miner := (f <~ download_issue (Some c47_dir) net 2013 91 ;; cached_pdf_parser (Some c47_dir) miner enc example_read f).
Lemma c51_starts : absent c47_disk (path_join c47_dir (issue_cache_id 2013 91)) /\ absent c47_disk (path_join c47_dir (issue_cache_id 2013 91 ++ u8 ".parsed_v5.gz")) /\ can_make c47_disk (path_dirname (path_join c47_dir (issue_cache_id 2013 91))).
Proof. split; [split; reflexivity|]. split; [split; reflexivity|]. split; [vm_compute; discriminate|repeat constructor]. Qed.
Example C51_issue_again_ex :
  let o := c51_run c51_net c47_miner c47_disk in
  o_urls o = [get_url 2013 91] /\ fs_dir (final c47_disk o) (u8 "/c/MK/2013") = true /\ fs_file (final c47_disk o) (u8 "/c/MK/2013/91.pdf") = Some (u8 "%PDF") /\
  o_urls (c51_run (fun _ => Err OSError) (fun _ => Err ValueError) (final c47_disk o)) = [] /\
  exists v, o_res (c51_run (fun _ => Err OSError) (fun _ => Err ValueError) (final c47_disk o)) = Ok v /\ py_eq hun_table (pdf_value c47_pages) v = true.
Proof.
  destruct c51_starts as (A & A' & M). destruct (proj2_sig c47_parse) as (E & N & _). destruct (C51_issue_again c47_dir c51_net c47_miner enc example_read 2013 91 (u8 "%PDF") c47_pages c47_disk example_codec A A' M eq_refl E N) as (_ & U1 & v & Q & R).
  cbn zeta. split; [exact U1|]. split; [vm_compute; reflexivity|]. split; [vm_compute; reflexivity|]. unfold c51_run at 1 2 3 4. rewrite !R. split; [reflexivity|]. exists v. auto.
Qed.
Theorem C51_truncated_refuted : ~ (forall dir y i net data s s',
  let p := path_join dir (issue_cache_id y i) in
  absent s p -> can_make s (path_dirname p) -> net (get_url y i) = Ok data ->
  In s' (o_states (download_issue (Some dir) net y i s)) -> o_res (download_issue (Some dir) net y i s') = Ok (mk_pdf data (issue_cache_id y i))).
Proof.
  intros H. destruct c51_starts as (A & A' & M). specialize (H c47_dir 2013 91 c51_net (u8 "%PDF") c47_disk (nth 3 (o_states (download_issue (Some c47_dir) c51_net 2013 91 c47_disk)) c47_disk) A M eq_refl).
  assert (I : In (nth 3 (o_states (download_issue (Some c47_dir) c51_net 2013 91 c47_disk)) c47_disk) (o_states (download_issue (Some c47_dir) c51_net 2013 91 c47_disk))) by (apply nth_In; vm_compute; lia).
  apply H in I. vm_compute in I. discriminate.
Qed.
Print Assumptions C51_truncated_refuted.
