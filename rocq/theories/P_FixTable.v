(* C77: the program's own fixups. *)
From Coq Require Import ZArith Lia.
From Verif Require Import PyBase PyBaseFacts IdModel LineModel FixupModel LineSpec NumSpec FixupSpec LineProofs FixupProofs TreeModel StructModel
  FixupEntries FixupTable FixTableSpec FixTableProofs P_Line.

(* the table is exact, and every act of it can be fixed *)
Lemma table_exact : forallb (fun id => exact_from [] (entries_of id)) (map fst program_history) = true.
Proof. vm_compute. reflexivity. Qed.
Lemma all_exact id : exact_from [] (entries_of id) = true.
Proof.
  destruct (in_dec (list_eq_dec N.eq_dec) id (map fst program_history)) as [H|H].
  - pose proof table_exact as T. rewrite forallb_forall in T. exact (T id H).
  - rewrite entries_unlisted by exact H. reflexivity.
Qed.
Lemma typed_known body : Forall one_char_parts body -> Forall (known []) body.
Proof. intros H. eapply Forall_impl; [|exact H]. intros l Hl. now left. Qed.

(** C77: for every act and every text of it in one-character parts, the program's fixups do to the texts of
    the lines what their entries say, one after the other, and fail only if some entry does not fit. *)
Theorem C77_applied : forall id body out, Forall one_char_parts body ->
  do_all_fixups program_fixups id body = Ok out ->
  text_steps (entries_of id) (map l_content body) (map l_content out).
Proof.
  intros id body out H E. rewrite program_run in E.
  exact (proj1 (entries_exact (entries_of id) [] body (all_exact id) (typed_known body H)) out E).
Qed.
Print Assumptions C77_applied.
Theorem C77_fitting : forall id body texts, Forall one_char_parts body ->
  text_steps (entries_of id) (map l_content body) texts ->
  exists out, do_all_fixups program_fixups id body = Ok out /\ map l_content out = texts.
Proof.
  intros id body texts H S. rewrite program_run.
  exact (proj2 (entries_exact (entries_of id) [] body (all_exact id) (typed_known body H)) texts S).
Qed.
Print Assumptions C77_fitting.
Theorem C77_unlisted : forall id body, ~ In id (map fst program_history) -> do_all_fixups program_fixups id body = Ok body.
Proof. intros id body H. rewrite program_run, entries_unlisted by exact H. reflexivity. Qed.
Print Assumptions C77_unlisted.

(* a text that the entries of an act fit *)
Fixpoint fitting_text (made : list pystr) (es : list fixup_entry) : list pystr :=
  match es with
  | [] => []
  | FReplace needle replacement prev :: t =>
      (match prev with
       | None => if existsb (str_eqb needle) made then [] else [needle]
       | Some ps => ps ++ [needle]
       end) ++ fitting_text (replacement :: made) t
  | FEmptyAfter needle :: t | FDelete needle :: t => needle :: fitting_text made t
  | FTitles :: t => fitting_text made t
  end.
Definition fitting_body (id : pystr) : list line := map char_line (fitting_text [] (entries_of id)).
Lemma char_line_typed s : one_char_parts (char_line s).
Proof. unfold one_char_parts, char_line. cbn [l_parts]. induction s; cbn [map]; constructor; auto. Qed.
Lemma fitting_typed id : Forall one_char_parts (fitting_body id).
Proof. unfold fitting_body. generalize (fitting_text [] (entries_of id)). intros ts. induction ts; cbn [map]; constructor; auto using char_line_typed. Qed.
Lemma table_fits : forallb (fun id => match do_all_fixups program_fixups id (fitting_body id) with Ok _ => true | Err _ => false end)
  fixed_acts = true.
Proof. vm_compute. reflexivity. Qed.
Theorem C77_possible : forall id, In id fixed_acts ->
  exists body out, Forall one_char_parts body /\ do_all_fixups program_fixups id body = Ok out.
Proof.
  intros id H. pose proof table_fits as T. rewrite forallb_forall in T. specialize (T id H).
  exists (fitting_body id). destruct (do_all_fixups program_fixups id (fitting_body id)) as [out|]; [|discriminate].
  exists out. split; [|reflexivity]. apply fitting_typed.
Qed.
Print Assumptions C77_possible.

(* every key of the table is the identifier of an act *)
Definition identifierb (id : pystr) : bool :=
  existsb (fun n => str_eqb id (firstn 4 id ++ u8 ". évi " ++ roman (Z.of_nat n) ++ u8 ". törvény")) (seq 1 400) &&
  Nat.eqb (List.length (firstn 4 id)) 4 && forallb (inb (u8 "0123456789")) (firstn 4 id).
Lemma table_identifiers : forallb identifierb fixed_acts = true.
Proof. vm_compute. reflexivity. Qed.
Theorem C77_identifiers : forall id, In id fixed_acts -> act_identifier id.
Proof.
  intros id H. pose proof table_identifiers as T. rewrite forallb_forall in T. specialize (T id H). unfold identifierb in T.
  apply andb_prop in T as [T T3]. apply andb_prop in T as [T1 T2]. apply existsb_exists in T1 as (n & Hn & E).
  apply str_eqb_eq in E. apply Nat.eqb_eq in T2. exists (firstn 4 id), (Z.of_nat n). split; [exact E|]. split; [exact T2|]. split.
  - rewrite forallb_forall in T3. apply Forall_forall. intros c Hc. specialize (T3 c Hc). apply existsb_exists in T3 as (x & Hx & Ex).
    apply N.eqb_eq in Ex. rewrite Ex. exact Hx.
  - apply in_seq in Hn as [Hn _]. clear - Hn. lia.
Qed.
Print Assumptions C77_identifiers.

(* the lines can be cut behind the headings that the parser looks for, but for one line of one act *)
Definition uncut_text : pystr := u8 "„3:240/A. § [Az átváltozó kötvény]".
Lemma table_cut : forallb (fun id => forallb (fun sh => str_eqb (concat sh) uncut_text || well_cut sh) (finals [] (entries_of id)))
  fixed_acts = true.
Proof. vm_compute. reflexivity. Qed.
Lemma listed_fixed id : entries_of id <> [] -> In id fixed_acts.
Proof.
  intros H. assert (Hi : In id (map fst program_history)).
  { destruct (in_dec (list_eq_dec N.eq_dec) id (map fst program_history)); [assumption|]. exfalso. apply H. apply entries_unlisted. assumption. }
  assert (T : forallb (fun i => existsb (str_eqb i) fixed_acts) (map fst program_history) = true) by (vm_compute; reflexivity).
  rewrite forallb_forall in T. specialize (T id Hi). apply existsb_exists in T as (x & Hx & E). apply str_eqb_eq in E. rewrite E. exact Hx.
Qed.
Theorem C77_cut : forall id body out l h rest, Forall one_char_parts body -> ~ In FTitles (entries_of id) ->
  do_all_fixups program_fixups id body = Ok out -> In l out ->
  l_content l <> uncut_text -> l_content l = h ++ rest -> line_heading h -> can_be_cut l h.
Proof.
  intros id body out l h rest H Ht E Hl Hu Ec Hh. rewrite program_run in E.
  pose proof (entries_known _ [] body out (all_exact id) Ht (typed_known body H) E) as K.
  rewrite Forall_forall in K. destruct (K l Hl) as [Ho|Hs]; [exact (one_char_cut l h rest Ho Ec)|].
  apply (well_cut_ok l h rest); [|exact Ec|exact Hh].
  assert (Hn : In id fixed_acts). { apply listed_fixed. intros En. rewrite En in Hs. exact Hs. }
  pose proof table_cut as T. rewrite forallb_forall in T. specialize (T id Hn). rewrite forallb_forall in T. specialize (T _ Hs).
  apply orb_prop in T as [T|T]; [|exact T]. apply str_eqb_eq in T. rewrite shape_content in Hu. exfalso. exact (Hu T).
Qed.
Print Assumptions C77_cut.

(* that line: the title is cut off with the number, and the article cannot be parsed *)
Definition c77_act : pystr := u8 "2013. évi CXXXV. törvény".
Definition c77_next : line := char_line (u8 "(1) A részvénytársaság kötvényt bocsáthat ki.").
Definition c77_checkb (l : line) : bool :=
  str_eqb (l_content l) uncut_text && list_eqb str_eqb (map p_content (l_parts l)) [u8 "„"; skipn 1 uncut_text] &&
  match l_slice l 1 None with
  | Ok q => str_eqb (l_content q) (skipn 1 uncut_text) &&
      match parse_article [q; c77_next] true with Err ArticleParsingError => true | _ => false end
  | Err _ => false
  end.
Definition c77_check (r : res (list line)) : bool :=
  match r with Ok out => match nth_error out 2 with Some l => c77_checkb l | None => false end | Err _ => false end.
Lemma c77_checked : c77_check (do_all_fixups program_fixups c77_act (fitting_body c77_act)) = true.
Proof. vm_compute. reflexivity. Qed.
Lemma c77_checkb_ok l : c77_checkb l = true ->
  l_content l = uncut_text /\ map p_content (l_parts l) = [u8 "„"; skipn 1 uncut_text] /\
  exists q, l_slice l 1 None = Ok q /\ l_content q = skipn 1 uncut_text /\ parse_article [q; c77_next] true = Err ArticleParsingError.
Proof.
  unfold c77_checkb. intros H. apply andb_prop in H as [H H3]. apply andb_prop in H as [H1 H2].
  apply str_eqb_eq in H1. apply (list_eqb_eq str_eqb str_eqb_eq) in H2.
  destruct (l_slice l 1 None) as [q|]; [|discriminate]. apply andb_prop in H3 as [H3 H4]. apply str_eqb_eq in H3.
  split; [exact H1|]. split; [exact H2|]. exists q. split; [reflexivity|]. split; [exact H3|].
  destruct (parse_article [q; c77_next] true) as [|e]; [discriminate|]. destruct e; try discriminate. reflexivity.
Qed.
Lemma c77_out : exists out, do_all_fixups program_fixups c77_act (fitting_body c77_act) = Ok out /\
  match nth_error out 2 with
  | Some l => l_content l = uncut_text /\ map p_content (l_parts l) = [u8 "„"; skipn 1 uncut_text] /\
      exists q, l_slice l 1 None = Ok q /\ l_content q = skipn 1 uncut_text /\ parse_article [q; c77_next] true = Err ArticleParsingError
  | None => False
  end.
Proof.
  pose proof c77_checked as H. unfold c77_check in H.
  destruct (do_all_fixups program_fixups c77_act (fitting_body c77_act)) as [out|]; [|discriminate].
  exists out. split; [reflexivity|]. destruct (nth_error out 2) as [l|]; [|discriminate]. now apply c77_checkb_ok.
Qed.
Definition c77_typed_check : bool :=
  match parse_article [char_line (skipn 1 uncut_text); c77_next] true with
  | Ok a => match a_title a with Some t => str_eqb t (u8 "Az átváltozó kötvény") | None => false end
  | Err _ => false
  end.
Lemma c77_typed_parsed : exists a,
  parse_article [char_line (skipn 1 uncut_text); c77_next] true = Ok a /\ a_title a = Some (u8 "Az átváltozó kötvény").
Proof.
  assert (H : c77_typed_check = true) by (vm_compute; reflexivity). unfold c77_typed_check in H.
  destruct (parse_article _ _) as [a|]; [|discriminate]. exists a. split; [reflexivity|].
  destruct (a_title a) as [t|]; [|discriminate]. apply str_eqb_eq in H. now subst t.
Qed.
Theorem C77_uncut_refuted : exists body out l,
  Forall one_char_parts body /\ do_all_fixups program_fixups c77_act body = Ok out /\ In l out /\
  l_content l = uncut_text /\ ~ can_be_cut l (u8 "„3:240/A. § ") /\
  (exists a, parse_article [char_line (skipn 1 uncut_text); c77_next] true = Ok a /\ a_title a = Some (u8 "Az átváltozó kötvény")) /\
  exists q, l_slice l 1 None = Ok q /\ l_content q = skipn 1 uncut_text /\ parse_article [q; c77_next] true = Err ArticleParsingError.
Proof.
  destruct c77_out as (out & E & Hn). exists (fitting_body c77_act), out.
  destruct (nth_error out 2) as [l|] eqn:El; [|contradiction]. destruct Hn as (H1 & H2 & q & Q1 & Q2 & Q3). exists l.
  split; [apply fitting_typed|]. split; [exact E|]. split; [now apply nth_error_In with 2%nat|]. split; [exact H1|]. split.
  - intros (a & b & Es & Ea). rewrite H2 in Es. clear - Es Ea. destruct a as [|x [|y [|z a]]]; cbn [app] in Es.
    + vm_compute in Ea. discriminate.
    + injection Es as <- _. vm_compute in Ea. discriminate.
    + injection Es as <- <- _. vm_compute in Ea. discriminate.
    + injection Es as _ _ Es. destruct a; discriminate.
  - split; [exact c77_typed_parsed|]. exists q. auto.
Qed.
Print Assumptions C77_uncut_refuted.

(* the sizes of the table, and an act with two entries for the same line *)
Example C77_ex :
  List.length fixed_acts = 156%nat /\ List.length program_history = 472%nat /\
  In c77_act fixed_acts /\ List.length (entries_of c77_act) = 11%nat /\
  (exists out, do_all_fixups program_fixups c77_act (fitting_body c77_act) = Ok out /\
     existsb (str_eqb (u8 "„3:297. § [Elsőbbségi jog gyakorlása]")) (map l_content out) = true) /\
  do_all_fixups program_fixups c77_act [] = Err ValueError.
Proof.
  split; [vm_compute; reflexivity|]. split; [vm_compute; reflexivity|]. split.
  { apply listed_fixed. intros E. apply (f_equal (@List.length _)) in E. vm_compute in E. discriminate. }
  split; [vm_compute; reflexivity|]. split; [|vm_compute; reflexivity].
  assert (H : match do_all_fixups program_fixups c77_act (fitting_body c77_act) with
    | Ok out => existsb (str_eqb (u8 "„3:297. § [Elsőbbségi jog gyakorlása]")) (map l_content out) | Err _ => false end = true)
    by (vm_compute; reflexivity).
  destruct (do_all_fixups program_fixups c77_act (fitting_body c77_act)) as [out|]; [|discriminate]. exists out. now split.
Qed.
