(* C80: the text of JSON files. *)
From Coq Require Import Lia Floats.SpecFloat Permutation.
From Coq Require Import ZifyBool ZifyNat ZifyN.
From Verif Require Import PyBase PyBaseFacts LineModel DateModel RefModel TreeModel TreeSpec D2oModel D2oSpec D2oHun D2oHunSpec P_D2o JsonSpec JsonProofs.
From Verif Require Import PdfModel CacheModel CacheSpec CacheProofs PipeModel PipeSpec TxtModel TxtSpec CliModel CliSpec IssueSpec IssueProofs.
From Verif Require GazModel P_Txt.
From Verif Require Import P_Issue JsonTextModel JsonTextSpec JsonTextProofs JsonTextProofs2 JsonTextProofs3.
Local Open Scope Z_scope.

(** C80: what is written for any data, with the indents of the files of acts and whatever characters are in it, is a JSON text
   with that meaning. *)
Theorem C80_written : forall io v, float_law io -> plain v -> exists t, json_dump file_style io v = Ok t /\ json_text io v t.
Proof.
  intros io v L P. apply dump_text; [exact L| |exact P|discriminate]. intros i E. injection E as <-. repeat (constructor; [cbn; tauto|]). constructor.
Qed.
Print Assumptions C80_written.
(* The same goes for what is written to the cache, if no half of a surrogate pair is in it; and that is in ASCII. *)
Theorem C80_cache : forall io v, float_law io -> plain v -> (forall s, string_in s v -> whole_chars s) ->
  exists t, json_dump cache_style io v = Ok t /\ json_text io v t /\ ascii_text t.
Proof.
  intros io v L P W. destruct (dump_text cache_style io v L) as (t & E & J); [discriminate|exact P|intros _; exact W|].
  exists t. split; [exact E|]. split; [exact J|]. exact (value_ascii io L v 0%nat t E).
Qed.
Print Assumptions C80_cache.
(* A JSON text, however it is written, with white space around it, is read as what it means. *)
Theorem C80_read : forall io v t b1 b2, json_text io v t -> blank b1 -> blank b2 -> json_load io (b1 ++ t ++ b2) = Ok v.
Proof. exact load_text. Qed.
Print Assumptions C80_read.
(* So it has one meaning only. *)
Theorem C80_meaning : forall io v w t, json_text io v t -> json_text io w t -> v = w.
Proof.
  intros io v w t V W. pose proof (load_text io v t [] [] V (Forall_nil _) (Forall_nil _)) as A. rewrite (load_text io w t [] [] W (Forall_nil _) (Forall_nil _)) in A. now injection A as ->.
Qed.
Print Assumptions C80_meaning.
(* Of members with the same key, the last one counts. *)
Theorem C80_repeated : forall io l t, json_members io l t ->
  exists d, json_load io (u8 "{" ++ t ++ u8 "}") = Ok (VDict d) /\ NoDup (map fst d) /\ forall k v, lookup k d = Some v <-> last_value k v l.
Proof. exact repeated_read. Qed.
Print Assumptions C80_repeated.
(* What is written is read back as it was. *)
Theorem C80_roundtrip : forall io v t, float_law io -> plain v -> json_dump file_style io v = Ok t -> json_load io t = Ok v.
Proof.
  intros io v t L P E. destruct (C80_written io v L P) as (t' & E' & J). rewrite E in E'. injection E' as <-.
  rewrite <- (C80_read io v t [] [] J (Forall_nil _) (Forall_nil _)). cbn [app]. now rewrite app_nil_r.
Qed.
Print Assumptions C80_roundtrip.
Theorem C80_cache_roundtrip : forall io v t, float_law io -> plain v -> (forall s, string_in s v -> whole_chars s) -> json_dump cache_style io v = Ok t -> json_load io t = Ok v.
Proof.
  intros io v t L P W E. destruct (C80_cache io v L P W) as (t' & E' & J & _). rewrite E in E'. injection E' as <-.
  rewrite <- (C80_read io v t [] [] J (Forall_nil _) (Forall_nil _)). cbn [app]. now rewrite app_nil_r.
Qed.
Print Assumptions C80_cache_roundtrip.
(* Without that condition it is not: the halves of a pair, written next to each other, are read as one character. *)
Theorem C80_cache_roundtrip_refuted : ~ forall io v t, plain v -> json_dump cache_style io v = Ok t -> json_load io t = Ok v.
Proof.
  intros H. specialize (H (mk_float_io (fun _ => []) (fun _ => S754_nan)) (VStr [55357; 56832]%N) _ (plain_str _) eq_refl). vm_compute in H. discriminate H.
Qed.
Print Assumptions C80_cache_roundtrip_refuted.
(* A text of an object, a list or a string that is cut short is not read at all, so a file that was not written to its end is
   not taken for a whole one. *)
Theorem C80_cut : forall io v t p, json_text io v t -> (exists l, v = VDict l) \/ (exists l, v = VList l) \/ (exists s, v = VStr s) -> cut_short p t ->
  exists e, json_load io p = Err e.
Proof.
  intros io v t p J K (q & E & Hq). destruct (json_load io p) as [b|e] eqn:R; [|exists e; reflexivity]. exfalso.
  apply (cut_fails io v t p q J) with (b := b); [|exact E|exact Hq|exact R].
  destruct K as [(l & ->)|[(l & ->)|(s & ->)]]; inversion J; subst; eexists; eexists; (split; [reflexivity|cbn [In]; tauto]).
Qed.
Print Assumptions C80_cut.
(* Numbers are not like that. *)
Theorem C80_cut_refuted : ~ forall io v t p, json_text io v t -> cut_short p t -> exists e, json_load io p = Err e.
Proof.
  intros H. destruct (H (mk_float_io (fun _ => []) (fun _ => S754_nan)) (VInt 12) (u8 "12") (u8 "1")) as (e & E);
    [exact (jt_int _ 12)|exists (u8 "2"); split; [reflexivity|discriminate]|vm_compute in E; discriminate E].
Qed.
Print Assumptions C80_cut_refuted.
(* Different data have different texts. *)
Theorem C80_distinct : forall io v w, float_law io -> plain v -> plain w -> json_dump file_style io v = json_dump file_style io w -> v = w.
Proof.
  intros io v w L V W E. destruct (C80_written io v L V) as (t & Et & _). pose proof (C80_roundtrip io v t L V Et) as A. rewrite E in Et. rewrite (C80_roundtrip io w t L W Et) in A. now injection A as ->.
Qed.
Print Assumptions C80_distinct.

(* With these, nothing has to be assumed about JSON in C76_files: the files of the acts of issues that are printed as
   described there are JSON texts, which are read back as acts equal to those printed. *)
Definition json_writers (wrap : wrapper) (io : float_io) (partial : output_format -> obj -> pystr) : writers :=
  mk_writers wrap (fun d => match json_dump file_style io d with Ok t => t | Err _ => [] end) partial.
Theorem C80_files : forall net miner fixups wrap io partial a dir actss order s, splits wrap -> float_law io ->
  ar_step a = full -> ar_format a = Json -> ar_output_dir a = Some dir -> Forall2 (served net miner fixups) (ar_issues a) actss -> Permutation (issues_of a) order ->
  NoDup (map act_identifier (concat actss)) -> can_make (cs_fs s) dir ->
  let target c := path_join dir (act_identifier c ++ u8 ".json") in
  (forall c, In c (concat actss) -> ~ In 47%N (act_identifier c) /\ fs_dir (cs_fs s) (target c) = false) ->
  exists fuel s', run (env_of net miner fixups) (json_writers wrap io partial) a fuel order s = Some (s', None) /\ cs_stdout s' = cs_stdout s /\
    (forall c, In c (concat actss) -> asked a (act_identifier c) -> exists t v, fs_file (cs_fs s') (target c) = Some t /\ json_text io (act_json c) t /\ json_load io t = Ok (act_json c) /\
       to_object hun_table (act_json c) (TClass (u8 "Act")) = Ok v /\ py_eq hun_table (act_value c) v = true) /\
    (forall p, (forall c, In c (concat actss) -> asked a (act_identifier c) -> p <> target c) -> fs_file (cs_fs s') p = fs_file (cs_fs s) p).
Proof.
  intros net miner fixups wrap io partial a dir actss order s Sp L St Fm Di Se Pe Nd Cm target Ok'.
  destruct (files_exact net miner fixups (json_writers wrap io partial) a dir actss order s Sp St Fm Di Se Pe Nd Cm Ok') as (fuel & s' & R & O & C & X).
  exists fuel, s'. split; [exact R|]. split; [exact O|]. split; [|exact X]. intros c I As.
  destruct (served_in _ _ _ c Se I) as (i & x & Sx & Ix). destruct (served_kept _ _ _ _ _ _ Sx Ix) as (d & v & D & P & V & E).
  rewrite JsonProofs.act_dump in D. injection D as <-. destruct (C80_written io (act_json c) L P) as (t & Et & J).
  exists t, v. split; [etransitivity; [exact (C c I As)|]; cbn [json_writers wr_dump]; rewrite Et; reflexivity|]. split; [exact J|]. split; [exact (C80_roundtrip io _ t L P Et)|]. split; [exact V|exact E].
Qed.
Print Assumptions C80_files.
(* The file of an act, and the output of "output json" in P_Cli, are read back in the same way. *)
Theorem C80_act : forall io a, float_law io -> writable a -> (forall l, line_in_act a l -> numbers l) ->
  exists t v, json_dump file_style io (act_json a) = Ok t /\ json_load io t = Ok (act_json a) /\
    to_object hun_table (act_json a) (TClass (u8 "Act")) = Ok v /\ py_eq hun_table (act_value a) v = true /\ forall p, cut_short p t -> exists e, json_load io p = Err e.
Proof.
  intros io a L W M. destruct (C42_act a W M) as (d & v & D & P & V & E). rewrite JsonProofs.act_dump in D. injection D as <-.
  destruct (C80_written io (act_json a) L P) as (t & Et & J). exists t, v. split; [exact Et|]. split; [exact (C80_roundtrip io _ t L P Et)|]. split; [exact V|]. split; [exact E|].
  intros p Cp. apply (C80_cut io _ t p J); [|exact Cp]. left. unfold act_json. eexists. reflexivity.
Qed.
Print Assumptions C80_act.

(** Examples *)
(* A way of writing and reading numbers that keeps the law: 3.0e-1 for 3 times 2 to the -1. *)
Definition c80_repr (f : pyfloat) : pystr :=
  match f with
  | S754_zero s => (if s then u8 "-" else []) ++ u8 "0.0"
  | S754_finite s m e => (if s then u8 "-" else []) ++ dec_N (Npos m) ++ u8 ".0e" ++ str_of_int e
  | _ => []
  end.
Definition c80_abs (s : bool) (t : pystr) : pyfloat :=
  match py_int (take_while is_digit t), py_int (skipn 3 (drop_while is_digit t)) with
  | Ok (Zpos m), Ok e => S754_finite s m e
  | _, _ => S754_zero s
  end.
Definition c80_io : float_io := mk_float_io c80_repr (fun t => match t with 45%N :: u => c80_abs true u | _ => c80_abs false t end).
Lemma c80_digits n t : (forall c u, t = c :: u -> is_digit c = false) -> take_while is_digit (dec_N n ++ t) = dec_N n /\ drop_while is_digit (dec_N n ++ t) = t.
Proof.
  intros H. assert (D : digits (dec_N n ++ t) = (dec_N n, t)); [|unfold digits in D; injection D as A B; split; assumption].
  apply digits_read; [pose proof (dec_N_digits n) as G; unfold ascii_digits in G; eapply Forall_impl; [|exact G]; cbn; unfold digit; intros; lia|].
  destruct t as [|c u]; [now left|right; exists c, u; split; [reflexivity|exact (H c u eq_refl)]].
Qed.
Lemma c80_law : float_law c80_io.
Proof.
  intros f [Nn Ni]. destruct f as [s|s| |s m e]; [|exfalso; exact (Ni s eq_refl)|exfalso; exact (Nn eq_refl)|].
  - split; [|destruct s; reflexivity]. exists (if s then u8 "-" else []), (u8 "0"), (u8 ".0"), []. split; [destruct s; reflexivity|]. split; [destruct s; cbn; tauto|]. split; [now left|].
    assert (F : fraction (u8 ".0")) by (exists (u8 "0"); split; [reflexivity|split; [discriminate|constructor; [unfold digit; lia|constructor]]]). split; [now right|]. split; [now left|now left].
  - cbn [c80_io fl_repr fl_read c80_repr].
    assert (F : fraction (u8 ".0")) by (exists (u8 "0"); split; [reflexivity|split; [discriminate|constructor; [unfold digit; lia|constructor]]]).
    assert (Dg : forall n, some_digits (dec_N n)).
    { intros n. split; [apply dec_N_nonempty|]. pose proof (dec_N_digits n) as G. unfold ascii_digits in G. eapply Forall_impl; [|exact G]. cbn. unfold digit. intros; lia. }
    assert (E : exponent (u8 "e" ++ str_of_int e)).
    { destruct (int_text e) as [(n & ->)|(n & ->)]; [exists (u8 "e"), [], (dec_N n)|exists (u8 "e"), (u8 "-"), (dec_N n)]; (split; [reflexivity|split; [cbn; tauto|split; [cbn; tauto|apply Dg]]]). }
    split.
    + exists (if s then u8 "-" else []), (dec_N (Npos m)), (u8 ".0"), (u8 "e" ++ str_of_int e). split; [reflexivity|]. split; [destruct s; cbn; tauto|]. split; [apply dec_whole|]. tauto.
    + assert (A : forall b, c80_abs b (dec_N (Npos m) ++ u8 ".0e" ++ str_of_int e) = S754_finite b m e).
      { intros b. unfold c80_abs. destruct (c80_digits (Npos m) (u8 ".0e" ++ str_of_int e)) as [T R]; [intros c u Q; injection Q as <- _; reflexivity|]. rewrite T, R.
        change (skipn 3 (u8 ".0e" ++ str_of_int e)) with (str_of_int e). rewrite py_int_text, py_int_dec. reflexivity. }
      destruct s; [exact (A true)|]. change ((if false then u8 "-" else []) ++ dec_N (Npos m) ++ u8 ".0e" ++ str_of_int e) with (dec_N (Npos m) ++ u8 ".0e" ++ str_of_int e).
      rewrite <- (A false). destruct (Dg (Npos m)) as [G1 G2]. destruct (dec_N (Npos m)) as [|c t]; [congruence|]. inversion G2 as [|? ? Hc _]; subst. cbn [app].
      destruct (N.eq_dec c 45) as [->|Hn]; [unfold digit in Hc; lia|]. clear - Hn. destruct c as [|p]; [reflexivity|]. do 6 (destruct p as [p|p|]; try reflexivity; try congruence).
Qed.
Definition c80_data : value := VDict
  [(u8 "identifier", VStr (u8 "2020. évi I. törvény")); (u8 "publication_date", VDict [(u8 "year", VInt 2020); (u8 "month", VInt (-1))]);
   (u8 "children", VList [VStr (u8 "a ""b"" \ " ++ [10; 31; 128512]%N); VList []; VFloat (S754_finite true 3 (-1)); VNone; VBool true; VDict []])].
Example C80_ex : plain c80_data /\ json_dump file_style c80_io c80_data = Ok (u8
"{
  ""identifier"": ""2020. évi I. törvény"",
  ""publication_date"": {
    ""year"": 2020,
    ""month"": -1
  },
  ""children"": [
    ""a \""b\"" \\ \n\u001f" ++ [128512%N] ++ u8 """,
    [],
    -3.0e-1,
    null,
    true,
    {}
  ]
}") /\
  json_dump cache_style c80_io c80_data = Ok (u8
"{""identifier"":""2020. \u00e9vi I. t\u00f6rv\u00e9ny"",""publication_date"":{""year"":2020,""month"":-1},""children"":[""a \""b\"" \\ \n\u001f\ud83d\ude00"",[],-3.0e-1,null,true,{}]}").
Proof.
  split; [|split; vm_compute; reflexivity]. unfold c80_data.
  repeat first [apply plain_dict | apply plain_list | apply Forall_cons | apply Forall_nil | constructor]; cbn [map fst In]; intuition discriminate.
Qed.
(* other ways to write it *)
Example C80_read_ex : json_load c80_io (u8 " { ""a"" : [ 1 , ""\u00c9\/"" ] , ""b"" :2.0E-2} ") =
    Ok (VDict [(u8 "a", VList [VInt 1; VStr (u8 "É/")]); (u8 "b", VFloat (S754_finite false 2 (-2)))]) /\
  (exists e, json_load c80_io (u8 "{""a"": [1, 2]") = Err e) /\ (exists e, json_load c80_io (u8 "[01]") = Err e) /\ (exists e, json_load c80_io (u8 "[1,]") = Err e).
Proof. split; [vm_compute; reflexivity|]. split; [|split]; eexists; vm_compute; reflexivity. Qed.
(* the issue of C76_ex *)
Example C80_files_ex : exists fuel s' t v, run (env_of c76_net c76_miner []) (json_writers P_Txt.c50_wrapper c80_io (fun _ _ => [])) c76_args fuel [ODownload 2020 1] c76_start = Some (s', None) /\
  fs_file (cs_fs s') (u8 "out/2020. évi I. törvény.json") = Some t /\ json_load c80_io t = Ok (act_json c76_act) /\
  to_object hun_table (act_json c76_act) (TClass (u8 "Act")) = Ok v /\ py_eq hun_table (act_value c76_act) v = true.
Proof.
  destruct (C80_files c76_net c76_miner [] P_Txt.c50_wrapper c80_io (fun _ _ => []) c76_args (u8 "out") [[c76_act]] [ODownload 2020 1] c76_start) as (fuel & s' & R & _ & F & _);
    [exact P_Txt.c50_splits|exact c80_law|reflexivity|reflexivity|reflexivity|constructor; [exact c76_served|constructor]|apply Permutation_refl| | | |].
  - cbn. repeat constructor. intros [].
  - split; [discriminate|]. repeat constructor.
  - intros c [<-|[]]. split; [|reflexivity]. intros I. vm_compute in I. repeat (destruct I as [I|I]; [discriminate|]). destruct I.
  - destruct (F c76_act (or_introl eq_refl)) as (t & v & Ft & _ & Lt & V & E); [right; right; discriminate|].
    exists fuel, s', t, v. split; [exact R|]. split; [exact Ft|]. split; [exact Lt|]. split; [exact V|exact E].
Qed.
Example C80_repeated_ex : json_load c80_io (u8 "{""a"":1,""b"":2,""a"":3}") = Ok (VDict [(u8 "a", VInt 3); (u8 "b", VInt 2)]).
Proof. vm_compute. reflexivity. Qed.
