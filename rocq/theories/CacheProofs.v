From Coq Require Import Lia.
From Coq Require Import ZifyBool ZifyNat ZifyN.
From Verif Require Import PyBase PyBaseFacts LineModel PdfModel D2oModel D2oSpec D2oHun D2oHunSpec P_D2o CacheModel CacheSpec.
Local Open Scope Z_scope.

(** * Files *)
Lemma set_same p b s : fs_file (set_file p b s) p = Some b.
Proof. cbn. now rewrite str_eqb_refl. Qed.
Lemma str_eqb_neq (a b : pystr) : a <> b -> str_eqb a b = false.
Proof. intros N. destruct (str_eqb a b) eqn:E; auto. apply str_eqb_eq in E. contradiction. Qed.
Lemma set_other p b s q : q <> p -> fs_file (set_file p b s) q = fs_file s q.
Proof. intros N. cbn. now rewrite str_eqb_neq. Qed.
Lemma can_write_test s p : can_write s p <-> (match path_dirname p with [] => true | _ => fs_dir s (path_dirname p) end) && negb (fs_dir s p) = true.
Proof.
  unfold can_write. rewrite andb_true_iff, negb_true_iff. destruct (path_dirname p) as [|c d]; intuition congruence.
Qed.
Lemma io_write_ok p data s : can_write s p -> io_write p data s = mk_out (map (fun k => set_file p (firstn k data) s) (seq 0 (S (List.length data)))) [] (Ok tt).
Proof. intros C. apply can_write_test in C. unfold io_write. now rewrite C. Qed.
Lemma io_write_err p data s : ~ can_write s p -> io_write p data s = mk_out [] [] (Err OSError).
Proof.
  intros C. unfold io_write. destruct (match path_dirname p with [] => true | _ => fs_dir s (path_dirname p) end && negb (fs_dir s p)) eqn:E; auto. destruct C. now apply can_write_test.
Qed.
Lemma last_map_seq {A} (f : nat -> A) n d : last (map f (seq 0 (S n))) d = f n.
Proof. rewrite seq_S, map_app. cbn [plus map]. apply last_last. Qed.
Lemma last_app_map {A} (f : nat -> A) n l d : last (l ++ map f (seq 0 (S n))) d = f n.
Proof. rewrite seq_S, map_app, app_assoc. cbn [plus map]. apply last_last. Qed.
Lemma final_write p data s : can_write s p -> final s (io_write p data s) = set_file p data s.
Proof. intros C. rewrite io_write_ok by auto. unfold final. cbn [o_states]. rewrite last_map_seq. now rewrite firstn_all. Qed.
Lemma write_states p data s s' : In s' (o_states (io_write p data s)) -> exists k, (k <= List.length data)%nat /\ s' = set_file p (firstn k data) s.
Proof.
  unfold io_write. destruct ((_ : bool)); cbn [o_states]; [|intros []]. intros I. apply in_map_iff in I as (k & <- & I). apply in_seq in I. exists k. split; [lia|reflexivity].
Qed.
Lemma bytes_states p data s s' : In s' (o_states (write_bytes p data s)) -> forall q, q <> p -> fs_file s' q = fs_file s q.
Proof.
  intros I q N. unfold write_bytes, io_bind, io_makedirs in I. destruct ((_ : bool)); cbn [o_res o_states] in I; [destruct I|]. cbn [app] in I. destruct I as [<-|I]; [reflexivity|].
  apply write_states in I as (k & _ & ->). rewrite set_other by auto. reflexivity.
Qed.
Lemma join_inj d n m : relative n -> relative m -> path_join d n = path_join d m -> n = m.
Proof.
  unfold relative, path_join. intros -> ->. destruct (rev d) as [|c t]; auto. destruct (N.eqb c 47); intros E; [now apply app_inv_head in E|]. apply app_inv_head in E. now apply app_inv_head in E.
Qed.
Lemma use_others write dir u s s' name : relative name -> relative (use_name u) -> use_name u <> name -> In s' (s :: use_states write dir u s) ->
  fs_file s' (path_join dir name) = fs_file s (path_join dir name).
Proof.
  intros R R' N [<-|I]; auto. assert (D : path_join dir name <> path_join dir (use_name u)) by (intros E; apply N; symmetry; eapply join_inj; eauto).
  destruct u as [n data|n x|n]; cbn [use_states use_name] in *.
  - eapply bytes_states; eauto.
  - apply write_states in I as (k & _ & ->). now apply set_other.
  - destruct I.
Qed.
Theorem read_back write read dir name x s us t : codec write read -> plain x -> relative name ->
  o_res (write_json write (path_join dir name) x s) = Ok tt ->
  Forall (fun u => relative (use_name u) /\ use_name u <> name) us ->
  history write dir (final s (write_json write (path_join dir name) x s)) us t ->
  o_res (read_json read (path_join dir name) t) = Ok x.
Proof.
  intros C P R E F H. assert (G : fs_file (final s (write_json write (path_join dir name) x s)) (path_join dir name) = Some (write x)).
  { unfold write_json in *. assert (W : can_write s (path_join dir name)). { destruct (match path_dirname (path_join dir name) with [] => true | _ => fs_dir s (path_dirname (path_join dir name)) end && negb (fs_dir s (path_join dir name))) eqn:Eb; [now apply can_write_test|].
      exfalso. unfold io_write in E. rewrite Eb in E. discriminate. }
    rewrite final_write by auto. apply set_same. }
  clear E. revert G F. induction H as [s0|s0 u us s' t I H IH]; intros G F.
  - unfold read_json, io_bind, io_read. cbn [o_res]. rewrite G. cbn. apply C; auto.
  - inversion F as [|? ? [R' N] F']; subst. apply IH; auto. rewrite <- G. eapply use_others; eauto.
Qed.

(** * The parsed file *)
Section parser.
Variables (dir : pystr) (f : pdf_file).
Let p := path_join dir (pf_cache_id f ++ u8 ".parsed_v5.gz").
Lemma parser_first miner write read s pages x : absent s p -> can_write s p -> parse_pdf miner (pf_bytes f) = Ok pages -> to_dict hun_table (pdf_value pages) PDF_TYPE = Ok x ->
  cached_pdf_parser (Some dir) miner write read f s = mk_out (map (fun k => set_file p (firstn k (write x)) s) (seq 0 (S (List.length (write x))))) [] (Ok (pdf_value pages)).
Proof.
  intros [A1 A2] W E D. unfold cached_pdf_parser, io_bind, io_ret, cache_filename, cache_exists, io_exists, write_json. cbn [o_res o_states o_urls app final last]. fold p. rewrite A1, A2. cbn [o_res o_states o_urls app final last].
  rewrite E. cbn [o_res o_states o_urls app final last]. rewrite D. unfold final. cbn [o_res o_states o_urls app last]. rewrite io_write_ok by auto. cbn [o_res o_states o_urls app]. now rewrite app_nil_r.
Qed.
Lemma parser_again miner write read s b : fs_file s p = Some b ->
  cached_pdf_parser (Some dir) miner write read f s = mk_out [] [] (x <- read b ;; to_object hun_table x PDF_TYPE).
Proof.
  intros G. unfold cached_pdf_parser, io_bind, io_ret, cache_filename, cache_exists, io_exists, read_json, io_read, io_bind, io_ret. cbn [o_res o_states o_urls app final last]. fold p. unfold final. cbn [o_states last]. rewrite G. cbn [o_res o_states o_urls app].
  unfold final. cbn [o_states last]. rewrite G. cbn [o_res o_states o_urls app]. destruct (read b); reflexivity.
Qed.
Theorem second_run miner write read s pages : codec write read -> absent s p -> can_write s p -> parse_pdf miner (pf_bytes f) = Ok pages -> Forall (Forall numbers) pages ->
  let o := cached_pdf_parser (Some dir) miner write read f s in
  o_res o = Ok (pdf_value pages) /\ o_urls o = [] /\
  exists v, py_eq hun_table (pdf_value pages) v = true /\ forall miner' write', cached_pdf_parser (Some dir) miner' write' read f (final s o) = mk_out [] [] (Ok v).
Proof.
  intros C A W E N. destruct (C42_pages pages N) as (x & v & D & P & O & Q). cbn zeta. rewrite (parser_first _ _ _ _ _ _ A W E D). cbn [o_res o_urls]. split; auto. split; auto. exists v. split; auto.
  intros miner' write'. unfold final. cbn [o_states]. rewrite last_map_seq, firstn_all. rewrite (parser_again _ _ _ _ (write x)) by apply set_same. destruct (C x P) as [-> _]. cbn [bind]. unfold PDF_TYPE. now rewrite O.
Qed.
Theorem killed_run miner write read s pages s' : codec write read -> absent s p -> can_write s p -> parse_pdf miner (pf_bytes f) = Ok pages -> Forall (Forall numbers) pages ->
  let o := cached_pdf_parser (Some dir) miner write read f s in
  In s' (o_states o) -> s' = final s o \/ exists e, forall miner' write', cached_pdf_parser (Some dir) miner' write' read f s' = mk_out [] [] (Err e).
Proof.
  intros C A W E N. destruct (C42_pages pages N) as (x & v & D & P & O & Q). cbn zeta. rewrite (parser_first _ _ _ _ _ _ A W E D). cbn [o_states]. unfold final. cbn [o_states]. rewrite last_map_seq, firstn_all.
  intros I. apply in_map_iff in I as (k & <- & I). apply in_seq in I. destruct (Nat.eq_dec k (List.length (write x))) as [->|Nk]; [left; now rewrite firstn_all|]. right.
  destruct (C x P) as [_ T]. destruct (T k ltac:(lia)) as (e & Ee). exists e. intros miner' write'. rewrite (parser_again _ _ _ _ (firstn k (write x))) by apply set_same. now rewrite Ee.
Qed.
Theorem no_directory miner write read s pages : absent s p -> path_dirname p <> [] -> fs_dir s (path_dirname p) = false -> parse_pdf miner (pf_bytes f) = Ok pages -> Forall (Forall numbers) pages ->
  cached_pdf_parser (Some dir) miner write read f s = mk_out [] [] (Err OSError).
Proof.
  intros [A1 A2] Nd Fd E N. destruct (C42_pages pages N) as (x & v & D & _). unfold cached_pdf_parser, io_bind, io_ret, cache_filename, cache_exists, io_exists, write_json. cbn [o_res o_states o_urls app final last]. fold p. rewrite A1, A2. cbn [o_res o_states o_urls app final last].
  rewrite E. cbn [o_res o_states o_urls app final last]. change (TClass (u8 "PdfOfLines")) with PDF_TYPE in D. rewrite D. unfold final. cbn [o_res o_states o_urls app last]. rewrite io_write_err; [reflexivity|]. intros [_ [H|H]]; congruence.
Qed.
End parser.

(** * Issues *)
Lemma str_of_int_inj a b : str_of_int a = str_of_int b -> a = b.
Proof.
  assert (D : forall n m, 45%N :: dec_N n <> dec_N m). { intros n m E. pose proof (dec_N_digits m) as H. rewrite <- E in H. inversion H; subst. lia. }
  unfold str_of_int. destruct (a <? 0) eqn:Ea, (b <? 0) eqn:Eb; intros E.
  - injection E as E. apply dec_N_inj in E. lia.
  - destruct (D _ _ E).
  - symmetry in E. destruct (D _ _ E).
  - apply dec_N_inj in E. lia.
Qed.
Lemma int_no_slash i : ~ In 47%N (str_of_int i).
Proof.
  unfold str_of_int. assert (D : forall n, ~ In 47%N (dec_N n)). { intros n I. pose proof (dec_N_digits n) as H. unfold ascii_digits in H. rewrite Forall_forall in H. apply H in I. lia. }
  destruct (i <? 0); [|apply D]. intros [E|I]; [discriminate|]. exact (D _ I).
Qed.
Lemma split_at {A} (c : A) a b a' b' : ~ In c a -> ~ In c a' -> a ++ c :: b = a' ++ c :: b' -> a = a' /\ b = b'.
Proof.
  revert a'. induction a as [|x a IH]; intros [|x' a'] N N' E; cbn in *.
  - injection E as ->. auto.
  - injection E as -> E. destruct N'. now left.
  - injection E as -> E. destruct N. now left.
  - injection E as -> E. destruct (IH a') as [-> ->]; auto.
Qed.
Theorem id_inj y i y' i' : issue_cache_id y i = issue_cache_id y' i' -> y = y' /\ i = i'.
Proof.
  unfold issue_cache_id. intros E. apply app_inv_head in E. apply (split_at 47%N) in E as [E1 E2]; try apply int_no_slash. apply str_of_int_inj in E1. apply app_inv_tail in E2. apply str_of_int_inj in E2. auto.
Qed.
Lemma id_relative y i : relative (issue_cache_id y i).
Proof. reflexivity. Qed.
Lemma parsed_relative y i : relative (issue_cache_id y i ++ u8 ".parsed_v5.gz").
Proof. reflexivity. Qed.
Theorem parsed_differs y i y' i' : issue_cache_id y i <> issue_cache_id y' i' ++ u8 ".parsed_v5.gz".
Proof.
  intros E. unfold issue_cache_id in E. apply (f_equal (@rev N)) in E. rewrite !rev_app_distr in E. discriminate.
Qed.

Lemma zeros_val k s : digits_val (repeat 48%N k ++ s) = digits_val s.
Proof. unfold digits_val. rewrite fold_left_app. f_equal. induction k as [|k IH]; cbn; auto. Qed.
Lemma pad_inj n i j : zero_pad n i = zero_pad n j -> i = j.
Proof.
  unfold zero_pad. rewrite !str_of_int_nonneg by lia.
  assert (D : forall k m n, u8 "-" ++ n <> repeat 48%N k ++ dec_N m).
  { intros k m s E. assert (H : ascii_digits (repeat 48%N k ++ dec_N m)). { apply Forall_app. split; [|apply dec_N_digits]. rewrite Forall_forall. intros c I. apply repeat_spec in I. lia. }
    rewrite <- E in H. inversion H; subst. lia. }
  destruct (i <? 0) eqn:Ei, (j <? 0) eqn:Ej; intros E.
  - apply app_inv_head in E. apply (f_equal digits_val) in E. rewrite !zeros_val, !dec_N_val in E. lia.
  - destruct (D _ _ _ E).
  - symmetry in E. destruct (D _ _ _ E).
  - apply (f_equal digits_val) in E. rewrite !zeros_val, !dec_N_val in E. lia.
Qed.
Lemma two_digits y : List.length (zero_pad 2 (y mod 100)) = 2%nat.
Proof.
  assert (B : 0 <= y mod 100 < 100) by (apply Z.mod_pos_bound; lia). remember (y mod 100) as m eqn:Em. clear Em y.
  assert (G : forallb (fun k => Nat.eqb (List.length (zero_pad 2 (Z.of_nat k))) 2) (seq 0 100) = true) by (vm_compute; reflexivity).
  rewrite forallb_forall in G. specialize (G (Z.to_nat m)). rewrite Z2Nat.id in G by lia. apply Nat.eqb_eq. apply G. apply in_seq. lia.
Qed.
Theorem url_iff y i y' i' : get_url y i = get_url y' i' <-> y mod 100 = y' mod 100 /\ i = i'.
Proof.
  unfold get_url. split; [|now intros [-> ->]]. intros E. apply app_inv_head in E.
  assert (S : zero_pad 2 (y mod 100) = zero_pad 2 (y' mod 100) /\ zero_pad 3 i ++ u8 ".pdf" = zero_pad 3 i' ++ u8 ".pdf").
  { pose proof (two_digits y) as L. pose proof (two_digits y') as L'. destruct (zero_pad 2 (y mod 100)) as [|a [|b [|]]]; try discriminate. destruct (zero_pad 2 (y' mod 100)) as [|a' [|b' [|]]]; try discriminate.
    cbn [app] in E. injection E as -> -> E. auto. }
  destruct S as [S1 S2]. apply pad_inj in S1. apply app_inv_tail in S2. apply pad_inj in S2. auto.
Qed.

(** * Downloads *)
Lemma drop_length {A} (f : A -> bool) l : (List.length (drop_while f l) <= List.length l)%nat.
Proof. induction l as [|x l IH]; cbn; auto. destruct (f x); cbn; lia. Qed.
Lemma drop_app {A} (f : A -> bool) a b : forallb f a = true -> drop_while f (a ++ b) = drop_while f b.
Proof. induction a as [|x a IH]; cbn; auto. destruct (f x); cbn; auto. discriminate. Qed.
Lemma dirname_shorter p c : c <> 47%N -> (List.length (path_dirname (p ++ [c])) <= List.length p)%nat.
Proof.
  intros N. unfold path_dirname. rewrite rev_app_distr. cbn [rev app drop_while]. destruct (N.eqb c 47) eqn:E; [apply N.eqb_eq in E; contradiction|]. cbn [negb].
  pose proof (drop_length (fun c => negb (N.eqb c 47)) (rev p)) as L. rewrite rev_length in L. destruct (forallb _ _); rewrite rev_length; auto.
  pose proof (drop_length (N.eqb 47) (rev (rev (drop_while (fun c => negb (N.eqb c 47)) (rev p))))) as L'. rewrite !rev_length in L'. lia.
Qed.
Lemma parents_shorter p : forall b q, In q (path_parents b p) -> (List.length q <= List.length b + List.length p)%nat.
Proof.
  induction p as [|c p IH]; intros b q I; cbn in I; [destruct I|]. apply in_app_iff in I as [I|I]; [destruct (N.eqb c 47); cbn in I; [destruct I as [<-|[]]|destruct I]; cbn; lia|].
  apply IH in I. rewrite app_length in I. cbn in *. lia.
Qed.
Lemma not_parent p c : c <> 47%N -> ~ In (p ++ [c]) (path_dirname (p ++ [c]) :: path_parents [] (path_dirname (p ++ [c]))).
Proof.
  intros N I. pose proof (dirname_shorter p c N) as L. assert (H : (List.length (p ++ [c]) <= List.length p)%nat). { destruct I as [E|I]; [now rewrite E in L at 1|]. apply parents_shorter in I. cbn [List.length plus] in I. lia. }
  rewrite app_length in H. cbn in H. lia.
Qed.
Lemma dirname_suffix p t : ~ In 47%N t -> path_dirname (p ++ t) = path_dirname p.
Proof.
  intros N. unfold path_dirname. rewrite rev_app_distr, drop_app; auto. apply forallb_forall. intros c I. apply in_rev in I. destruct (N.eqb c 47) eqn:E; auto. apply N.eqb_eq in E. subst. contradiction.
Qed.
Lemma join_app d n t : n <> [] -> path_join d (n ++ t) = path_join d n ++ t.
Proof.
  intros N. unfold path_join. assert (E : startswith (u8 "/") (n ++ t) = startswith (u8 "/") n) by (destruct n; [congruence|reflexivity]). rewrite E.
  destruct (startswith (u8 "/") n); eauto. destruct (rev d) as [|a l]; eauto. destruct (N.eqb a 47); now rewrite <- !app_assoc.
Qed.
Lemma issue_not_parent dir y i : let p := path_join dir (issue_cache_id y i) in ~ In p (path_dirname p :: path_parents [] (path_dirname p)).
Proof.
  cbn zeta. unfold issue_cache_id. change (u8 ".pdf") with (u8 ".pd" ++ [102%N]). rewrite !app_assoc. rewrite join_app by (intros E; discriminate). apply not_parent. discriminate.
Qed.
Lemma parsed_dirname dir y i : path_dirname (path_join dir (issue_cache_id y i ++ u8 ".parsed_v5.gz")) = path_dirname (path_join dir (issue_cache_id y i)).
Proof.
  rewrite join_app by (unfold issue_cache_id; intros E; discriminate). apply dirname_suffix. intros I. vm_compute in I. decompose [or] I; try discriminate; auto.
Qed.
Lemma makedirs_ok d s : can_make s d -> io_makedirs d s = mk_out [add_dirs (d :: path_parents [] d) s] [] (Ok tt).
Proof.
  intros [N F]. unfold io_makedirs. replace (existsb _ (d :: path_parents [] d)) with false; [destruct d; [congruence|reflexivity]|]. symmetry. apply not_true_iff_false. intros E. apply existsb_exists in E as (q & I & E).
  rewrite Forall_forall in F. rewrite (F _ I) in E. discriminate.
Qed.
Section download.
Variables (dir : pystr) (y i : Z).
Let p := path_join dir (issue_cache_id y i).
Lemma download_first net data s : absent s p -> can_make s (path_dirname p) -> net (get_url y i) = Ok data ->
  let s1 := add_dirs (path_dirname p :: path_parents [] (path_dirname p)) s in
  download_issue (Some dir) net y i s = mk_out (s1 :: map (fun k => set_file p (firstn k data) s1) (seq 0 (S (List.length data)))) [get_url y i] (Ok (mk_pdf data (issue_cache_id y i))).
Proof.
  intros [A1 A2] M E s1. pose proof (issue_not_parent dir y i) as Np. cbn zeta in Np. fold p in Np. unfold download_issue, io_bind, io_ret, cache_filename, cache_exists, io_exists, io_download, write_bytes, io_bind, open_pdf, io_bind, io_read, io_ret.
  cbn [o_res o_states o_urls app final last]. fold p. rewrite A1, A2. cbn [o_res o_states o_urls app]. unfold final at 1 2 3. cbn [o_states last]. rewrite E. cbn [o_res o_states o_urls app]. unfold final. cbn [o_states last].
  rewrite makedirs_ok by auto. cbn [o_res o_states o_urls app last]. fold s1.
  assert (W : can_write s1 p).
  { split.
    - unfold s1. cbn [add_dirs fs_dir]. rewrite A2, orb_false_r. destruct (mem_str p _) eqn:Em; auto. unfold mem_str in Em. apply existsb_exists in Em as (q & I & Eq). apply str_eqb_eq in Eq. subst q. contradiction.
    - right. unfold s1, mem_str. cbn [add_dirs fs_dir existsb]. unfold mem_str. cbn [existsb]. now rewrite str_eqb_refl. }
  rewrite io_write_ok by auto. cbn [o_res o_states o_urls app]. set (ms := map _ _).
  assert (L : forall d, last (s1 :: ms) d = set_file p data s1).
  { intros d. unfold ms. transitivity (last (map (fun k => set_file p (firstn k data) s1) (seq 0 (S (List.length data)))) d); [reflexivity|]. rewrite last_map_seq. now rewrite firstn_all. }
  change (match ms with [] => s1 | _ => last ms s end) with (last (s1 :: ms) s). rewrite !L, set_same. cbn [o_res o_states o_urls app]. now rewrite app_nil_r.
Qed.
Lemma download_again net s b : fs_file s p = Some b -> download_issue (Some dir) net y i s = mk_out [] [] (Ok (mk_pdf b (issue_cache_id y i))).
Proof.
  intros G. unfold download_issue, io_bind, io_ret, cache_filename, cache_exists, io_exists, open_pdf, io_bind, io_read, io_ret. cbn [o_res o_states o_urls app final last]. fold p. unfold final. cbn [o_states last]. rewrite G. cbn [o_res o_states o_urls app last].
  unfold final. cbn [o_states last]. rewrite G. reflexivity.
Qed.
Theorem downloaded net data s : absent s p -> can_make s (path_dirname p) -> net (get_url y i) = Ok data ->
  let o := download_issue (Some dir) net y i s in
  o_res o = Ok (mk_pdf data (issue_cache_id y i)) /\ o_urls o = [get_url y i] /\
  (forall net', download_issue (Some dir) net' y i (final s o) = mk_out [] [] (Ok (mk_pdf data (issue_cache_id y i)))) /\
  (forall s' q, In s' (o_states o) -> q <> p -> fs_file s' q = fs_file s q) /\
  (forall s', In s' (o_states o) -> fs_file s' p = None \/
     exists k, forall net', download_issue (Some dir) net' y i s' = mk_out [] [] (Ok (mk_pdf (firstn k data) (issue_cache_id y i)))).
Proof.
  intros A M E. cbn zeta. rewrite (download_first net data s A M E). cbn [o_res o_urls o_states]. set (s1 := add_dirs _ s). split; auto. split; auto. split; [|split].
  - intros net'. apply download_again. unfold final. cbn [o_states]. transitivity (fs_file (last (map (fun k => set_file p (firstn k data) s1) (seq 0 (S (List.length data)))) s) p); [reflexivity|].
    rewrite last_map_seq, firstn_all. apply set_same.
  - intros s' q [<-|I] N; [reflexivity|]. apply in_map_iff in I as (k & <- & _). rewrite set_other by auto. reflexivity.
  - intros s' [<-|I]; [left; apply A|]. right. apply in_map_iff in I as (k & <- & _). exists k. intros net'. apply download_again. apply set_same.
Qed.
End download.

Lemma last_default {A} (l : list A) d d' : l <> [] -> last l d = last l d'.
Proof. induction l as [|a l IH]; [congruence|]. intros _. destruct l; cbn; auto. apply IH. discriminate. Qed.
Lemma last_join {A} (a b : list A) d : last (a ++ b) d = last b (last a d).
Proof.
  revert d. induction a as [|x a IH]; intros d; auto. cbn [app]. destruct a as [|y a].
  - cbn [app last]. destruct b as [|z b]; auto. transitivity (last (z :: b) d); [reflexivity|]. apply last_default. discriminate.
  - transitivity (last ((y :: a) ++ b) d); [reflexivity|]. apply IH.
Qed.
(* an issue is downloaded and parsed; afterwards both come from the cache *)
Theorem issue_again dir net miner write read y i data pages s :
  codec write read -> absent s (path_join dir (issue_cache_id y i)) -> absent s (path_join dir (issue_cache_id y i ++ u8 ".parsed_v5.gz")) ->
  can_make s (path_dirname (path_join dir (issue_cache_id y i))) ->
  net (get_url y i) = Ok data -> parse_pdf miner data = Ok pages -> Forall (Forall numbers) pages ->
  let run net miner := f <~ download_issue (Some dir) net y i ;; cached_pdf_parser (Some dir) miner write read f in
  let o := run net miner s in
  o_res o = Ok (pdf_value pages) /\ o_urls o = [get_url y i] /\
  exists v, py_eq hun_table (pdf_value pages) v = true /\ forall net' miner', run net' miner' (final s o) = mk_out [] [] (Ok v).
Proof.
  intros C A A' M En Ep Nn. cbn zeta. set (f := mk_pdf data (issue_cache_id y i)). set (p := path_join dir (issue_cache_id y i)) in *. set (q := path_join dir (issue_cache_id y i ++ u8 ".parsed_v5.gz")) in *.
  destruct (downloaded dir y i net data s A M En) as (D1 & D2 & _ & _ & _). fold f in D1.
  set (s1 := final s (download_issue (Some dir) net y i s)).
  assert (F1 : s1 = set_file p data (add_dirs (path_dirname p :: path_parents [] (path_dirname p)) s)).
  { unfold s1. rewrite (download_first dir y i net data s A M En). unfold final. cbn [o_states]. fold p. set (s0 := add_dirs _ s). transitivity (last (map (fun k => set_file p (firstn k data) s0) (seq 0 (S (List.length data)))) s); [reflexivity|]. rewrite last_map_seq. now rewrite firstn_all. }
  assert (Npq : p <> q) by (intros E; apply (parsed_differs y i y i); apply (join_inj dir); [apply id_relative|apply parsed_relative|exact E]).
  assert (Nq : fs_dir s1 q = false).
  { rewrite F1. cbn [set_file add_dirs fs_dir]. destruct A' as [_ ->]. rewrite orb_false_r. destruct (mem_str q _) eqn:Em; auto. exfalso. unfold mem_str in Em. apply existsb_exists in Em as (r & I & Er). apply str_eqb_eq in Er. subst r.
    unfold p in I. rewrite <- (parsed_dirname dir y i) in I. fold q in I. revert I. unfold q. rewrite join_app by (unfold issue_cache_id; intros E; discriminate).
    change (u8 ".parsed_v5.gz") with (u8 ".parsed_v5.g" ++ [122%N]). rewrite app_assoc. apply not_parent. discriminate. }
  assert (Aq : absent s1 q).
  { split; auto. rewrite F1, set_other by congruence. apply A'. }
  assert (Wq : can_write s1 q).
  { split; auto. right. unfold q. rewrite parsed_dirname. fold p. rewrite F1. unfold mem_str. cbn [set_file add_dirs fs_dir]. unfold mem_str. cbn [existsb]. now rewrite str_eqb_refl. }
  destruct (second_run dir f miner write read s1 pages C Aq Wq Ep Nn) as (S1 & S2 & v & V1 & V2).
  assert (B : forall net' miner' t, fs_file t p = Some data -> (f0 <~ download_issue (Some dir) net' y i;; cached_pdf_parser (Some dir) miner' write read f0) t = cached_pdf_parser (Some dir) miner' write read f t).
  { intros net' miner' t G. unfold io_bind. rewrite (download_again dir y i net' t data G). cbn [o_res o_states o_urls app]. unfold final. cbn [o_states last]. fold f. destruct (cached_pdf_parser _ _ _ _ f t); reflexivity. }
  set (o := (f0 <~ download_issue (Some dir) net y i;; cached_pdf_parser (Some dir) miner write read f0) s).
  assert (Eo : o = mk_out (o_states (download_issue (Some dir) net y i s) ++ o_states (cached_pdf_parser (Some dir) miner write read f s1)) [get_url y i] (Ok (pdf_value pages))).
  { unfold o, io_bind. rewrite D1, D2. fold s1. now rewrite S1, S2. }
  assert (Fo : final s o = final s1 (cached_pdf_parser (Some dir) miner write read f s1)).
  { rewrite Eo. unfold final at 1 2. cbn [o_states]. rewrite last_join. reflexivity. }
  split; [now rewrite Eo|]. split; [now rewrite Eo|]. exists v. split; auto. intros net' miner'. rewrite B; [rewrite Fo; apply V2|]. rewrite Fo.
  destruct (C42_pages pages Nn) as (x & v' & Dx & _). rewrite (parser_first dir f miner write read s1 pages x Aq Wq Ep Dx). unfold final. cbn [o_states]. rewrite last_map_seq. rewrite set_other by exact Npq. rewrite F1. apply set_same.
Qed.
Theorem size_ok p data s : (o_res (write_bytes p data s) = Ok tt -> o_res (size_on_disk p (final s (write_bytes p data s))) = Ok (List.length data)) /\
  (absent s p -> o_res (size_on_disk p s) = Ok 0%nat).
Proof.
  split; [|intros [A _]; cbn; now rewrite A]. unfold write_bytes, io_bind. set (m := io_makedirs _ s). assert (M : o_states m = [] \/ exists t, o_states m = [t]).
  { unfold m, io_makedirs. destruct ((_ : bool)); cbn; eauto. }
  destruct (o_res m) eqn:E; [|cbn; congruence]. cbn [o_res]. intros W. unfold final. cbn [o_states]. fold (final s m) in *. rename a into u. clear E u.
  set (t := final s m) in *. assert (C : can_write t p). { apply can_write_test. unfold io_write in W. destruct ((_ : bool)) eqn:B; [reflexivity|discriminate]. }
  rewrite io_write_ok by exact C. cbn [o_states]. rewrite last_app_map. cbn [size_on_disk o_res]. unfold size_on_disk. cbn [o_res]. rewrite firstn_all, set_same. reflexivity.
Qed.
