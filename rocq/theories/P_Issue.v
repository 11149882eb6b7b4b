(* C76: issues of the gazette from their characters to the files of their acts. *)
From Coq Require Import Lia Permutation Sorted.
From Verif Require Import PyBase PyBaseFacts NumModel NumSpec IdModel IdSpec LineModel LineSpec LineProofs DateModel DateSpec RefModel RefSpec TreeModel TreeSpec SemModel GramModel GramSpec
  PegModel PegSpec PegSpec2 PegSpec3 PegSpec4 PegSpec5 SemSpec SemProofs SemProofs7 FixupModel D2oModel D2oSpec D2oHun D2oHunSpec FitSpec P_Sem P_Told P_Amends P_Enforce P_Skip
  StructModel StructSpec StructProofs LayoutSpec BodySpec LayoutProofs LayoutProofs2 LayoutProofs3 BodyProofs2 BodyProofs3 LawSpec LawProofs LawProofs2 P_Layout P_Body P_Fit P_Law.
From Verif Require PdfProofs PdfProofs3.
From Verif Require Import PdfModel PdfSpec GazModel GazSpec CacheModel CacheSpec CacheExample ExtModel HtmlModel TxtModel TxtSpec P_Txt PipeModel PipeSpec CliModel CliSpec IssueSpec IssueProofs.
Local Open Scope Z_scope.

(** C76: if the pages of a file are printed with the given lines, these are read from it. *)
Theorem C76_pages : forall miner b css pages, miner b = Ok (flat_map page_events css) -> Forall2 page_printed css pages -> parse_pdf miner b = Ok pages.
Proof. exact pages_read. Qed.
Print Assumptions C76_pages.
(* The laws in a section are found, and no other. *)
Theorem C76_section : forall d ls ws, laws_printed d ls ws -> law_extractor (mk_section d ls) = mk_gen ws None.
Proof. exact section_read. Qed.
Print Assumptions C76_section.
(* The laws of an issue are found, and no other. *)
Theorem C76_laws : forall d pages laws laws', issue_printed d pages laws -> gazette_laws pages laws /\ (gazette_laws pages laws' -> laws' = laws).
Proof.
  intros d pages laws laws' I. split; [exact (issue_read _ _ _ I)|]. intros G'. pose proof (issue_read _ _ _ I) as G.
  destruct G as [pages E|pages k ss lss R S F]; destruct G' as [pages E'|pages k' ss' lss' R' S' F']; try congruence.
  assert (k' = k) as -> by congruence. assert (ss' = ss) as -> by congruence.
  f_equal. clear - F F'. revert lss' F'. induction F as [|s ws ss lss E _ IH]; intros lss' F'; inversion F'; subst; [reflexivity|]. f_equal; [congruence|auto].
Qed.
Print Assumptions C76_laws.
(* What is extracted from the issues is the acts printed in them, whatever the number of workers and the order in which they work. *)
Theorem C76_acts : forall net miner fixups issues actss workers order, Forall2 (served net miner fixups) issues actss ->
  let objects := map (fun i => ODownload (fst i) (snd i)) issues in Permutation objects order ->
  exists fuel l, do_extraction (hun_world (env_of net miner fixups)) [CAct] fuel objects workers order = Some (mk_gen (map OAct l) None) /\ Permutation l (concat actss).
Proof. exact acts_read. Qed.
Print Assumptions C76_acts.
(* The program writes a file for each of the acts that are asked for, which is read back as an act equal to it; nothing else
   is changed and nothing is printed.  The acts must have different names without a "/", and the directory can be made. *)
Theorem C76_files : forall net miner fixups w load a dir actss order s, splits (wr_wrapper w) -> (forall d, plain d -> load (wr_dump w d) = Ok d) ->
  ar_step a = full -> ar_format a = Json -> ar_output_dir a = Some dir -> Forall2 (served net miner fixups) (ar_issues a) actss -> Permutation (issues_of a) order ->
  NoDup (map act_identifier (concat actss)) -> can_make (cs_fs s) dir ->
  let target c := path_join dir (act_identifier c ++ u8 ".json") in
  (forall c, In c (concat actss) -> ~ In 47%N (act_identifier c) /\ fs_dir (cs_fs s) (target c) = false) ->
  exists fuel s', run (env_of net miner fixups) w a fuel order s = Some (s', None) /\ cs_stdout s' = cs_stdout s /\
    (forall c, In c (concat actss) -> asked a (act_identifier c) -> exists t d v, fs_file (cs_fs s') (target c) = Some t /\ load t = Ok d /\
       to_object hun_table d (TClass (u8 "Act")) = Ok v /\ py_eq hun_table (act_value c) v = true) /\
    (forall p, (forall c, In c (concat actss) -> asked a (act_identifier c) -> p <> target c) -> fs_file (cs_fs s') p = fs_file (cs_fs s) p).
Proof. exact files_written. Qed.
Print Assumptions C76_files.

(** Examples *)
Definition c76_font : font := mk_font (u8 "Times") (fun cid => Some [Z.to_N cid]) (fun _ => f_dyadic 1 (-1)).
Fixpoint c76_row (y x : Z) (s : pystr) : list char :=
  match s with
  | [] => []
  | c :: t => (if N.eqb c 32 then [] else [mk_char (f_of_Z 1) (f_of_Z x) (f_of_Z y) c76_font (f_of_Z 10) (f_of_Z 1) (Z.of_N c)]) ++ c76_row y (x + 5) t
  end.
Definition c76_drawn (rows : list (Z * pystr)) : list char := flat_map (fun r => c76_row (fst r) 20 (snd r)) rows.
Definition c76_css : list (list char) := map c76_drawn [
  [(800, u8 "MAGYAR KÖZLÖNY"); (786, u8 "1. szám"); (772, u8 "MAGYARORSZÁG HIVATALOS LAPJA"); (758, u8 "2020. január 2., csütörtök"); (744, u8 "-"); (730, u8 "Tartalomjegyzék"); (716, u8 "2020. évi I. törvény a példáról 2")];
  [(800, u8 "2 MAGYAR KÖZLÖNY • 2020. évi 1. szám"); (770, u8 "II. Törvények"); (740, u8 "2020. évi I. törvény"); (726, u8 "a példáról*"); (712, u8 "1. § " ++ c70_next);
   (682, u8 "Áder János s. k., Kövér László s. k.,"); (668, u8 "köztársasági elnök az Országgyűlés elnöke")]].
Definition c76_page (cs : list char) : page := match extract_single_page (flat_map char_boxes cs) with Ok ls => ls | Err _ => [] end.

(* the conditions on the characters of a page can be computed *)
Definition proper_now (f : pyfloat) : bool := match f with SpecFloat.S754_nan | SpecFloat.S754_zero true => false | _ => true end.
Definition page_now (cs : list char) : bool :=
  let bs := flat_map char_boxes cs in
  forallb (fun c => (0 <=? ch_cid c) && GazSpec.nonempty (glyph (ch_font c) (ch_cid c))) cs && GazSpec.nonempty bs &&
  forallb (fun b => proper_now (tb_x b) && proper_now (tb_y b) && GazSpec.nonempty (tb_content b) && proper_now (f_add (tb_width b) (tb_x b))) bs &&
  forallb (fun a => forallb (fun b => negb (f_eqb (tb_x a) (tb_x b)) || negb (f_eqb (tb_y a) (tb_y b)) || str_eqb (tb_content a) (tb_content b)) bs) bs &&
  match extract_single_page bs with Ok _ => true | Err _ => false end.
Lemma proper_ok f : proper_now f = true -> proper f.
Proof. destruct f as [[]| | |]; try discriminate; intros _; split; discriminate. Qed.
Lemma nonempty_ok {A} (l : list A) : GazSpec.nonempty l = true -> l <> [].
Proof. destruct l; discriminate. Qed.
Lemma page_now_ok cs : page_now cs = true -> page_printed cs (c76_page cs).
Proof.
  unfold page_now, c76_page. intros H. cbv zeta in H. set (bs := flat_map char_boxes cs) in *. apply andb_true_iff in H as [H X]. destruct (extract_single_page bs) as [ls|] eqn:E; [|discriminate].
  apply andb_true_iff in H as [H C]. apply andb_true_iff in H as [H P]. apply andb_true_iff in H as [G N]. rewrite forallb_forall in G, P, C.
  assert (P' : Forall proper_box bs). { apply Forall_forall. intros b I. specialize (P b I). repeat (apply andb_true_iff in P as [P ?]). split; [now apply proper_ok|]. split; [now apply proper_ok|now apply nonempty_ok]. }
  assert (E' : Forall (fun b => proper (f_add (tb_width b) (tb_x b))) bs). { apply Forall_forall. intros b I. specialize (P b I). apply andb_true_iff in P as [_ P]. now apply proper_ok. }
  assert (C' : consistent bs).
  { intros a b Ia Ib Ex Ey. specialize (C a Ia). rewrite forallb_forall in C. specialize (C b Ib). rewrite Forall_forall in P'. destruct (P' a Ia) as (Px & Py & _). rewrite <- Ex, <- Ey in C.
    rewrite (PdfProofs.eqb_refl _ Px), (PdfProofs.eqb_refl _ Py) in C. cbn [negb orb] in C. now apply str_eqb_eq in C. }
  apply nonempty_ok in N. split.
  { apply Forall_forall. intros c I. specialize (G c I). apply andb_true_iff in G as [G1 G2]. split; [now apply Z.leb_le in G1|now apply nonempty_ok]. }
  split; [exact N|]. split; [exact P'|]. split; [exact E'|]. split; [exact C'|]. destruct (PdfProofs3.page_ok bs N P' C') as (rs & m & R & M & K). exists rs, m. split; [exact R|]. split; [exact M|]. congruence.
Qed.
Lemma c76_drawn_pages : Forall2 page_printed c76_css (map c76_page c76_css).
Proof. assert (A : Forall (fun cs => page_now cs = true) c76_css) by (repeat (constructor; [vm_compute; reflexivity|]); constructor). induction A as [|cs css A _ IH]; cbn [map]; constructor; [now apply page_now_ok|exact IH]. Qed.

(* the lines of the two pages *)
Definition c76_first (k : nat) : line := nth k (nth 0 (map c76_page c76_css) []) EMPTY_LINE.
Definition c76_second (k : nat) : line := nth k (nth 1 (map c76_page c76_css) []) EMPTY_LINE.
Lemma list_nth {A} (d : A) : forall l, l = map (fun k => nth k l d) (seq 0 (length l)).
Proof. induction l as [|x l IH]; [reflexivity|]. cbn [length seq map nth]. f_equal. rewrite IH at 1. rewrite <- seq_shift, map_map. reflexivity. Qed.
Lemma c76_pages_are : map c76_page c76_css = [map c76_first (seq 0 7); map c76_second (seq 0 10)].
Proof.
  assert (Ls : length (map c76_page c76_css) = 2%nat /\ length (nth 0 (map c76_page c76_css) []) = 7%nat /\ length (nth 1 (map c76_page c76_css) []) = 10%nat) by (repeat split; vm_compute; reflexivity).
  unfold c76_first, c76_second. destruct Ls as (L & L1 & L2). revert L L1 L2. generalize (map c76_page c76_css). intros l L L1 L2. destruct l as [|a [|b [|]]]; try discriminate. cbn [nth] in *.
  pose proof (list_nth EMPTY_LINE a) as A. rewrite L1 in A. pose proof (list_nth EMPTY_LINE b) as B. rewrite L2 in B. f_equal; [exact A|]. f_equal. exact B.
Qed.
Lemma c76_laws_of (F Q : nat -> line) : l_content (F 0%nat) = u8 "MAGYAR KÖZLÖNY" ->
  l_content (F 2%nat) = u8 "MAGYARORSZÁG HIVATALOS LAPJA" ->
  l_content (F 3%nat) = u8 "2020. január 2., csütörtök" ->
  l_content (F 5%nat) = u8 "Tartalomjegyzék" ->
  l_content (Q 2%nat) = u8 "II. Törvények" ->
  GazSpec.blank (Q 3%nat) ->
  l_content (Q 4%nat) = u8 "2020. évi I. törvény" ->
  l_content (Q 5%nat) = u8 "a példáról*" ->
  GazSpec.blank (Q 7%nat) ->
  l_content (Q 9%nat) = u8 "köztársasági elnök az Országgyűlés elnöke" ->
  issue_printed (mk_date 2020 1 2) [map F (seq 0 7); map Q (seq 0 10)] [mk_law (u8 "2020. évi I. törvény") (mk_date 2020 1 2) (u8 "a példáról") [Q 6%nat]].
Proof.
  intros F0 F2 F3 F5 S2 S3 S4 S5 S7 S9. cbn [seq map].
  exists (F 0%nat), (F 1%nat), (F 2%nat), (F 3%nat), (F 4%nat), [F 5%nat; F 6%nat], [map Q (seq 0 10)],
    [mk_run (u8 "Tartalomjegyzék") [[F 5%nat; F 6%nat]; map F (seq 2 5)]; mk_run laws_title [map Q (seq 2 8)]], [[mk_law (u8 "2020. évi I. törvény") (mk_date 2020 1 2) (u8 "a példáról") [Q 6%nat]]].
  split; [reflexivity|]. split; [exists [], []; rewrite F0; reflexivity|]. split.
  { split; [split; [split; [|exists 31; split; [constructor; cbn; tauto|]]|]; cbn; lia|]. exists (u8 "2020"), (u8 "2"), (u8 ", csütörtök"). rewrite F3. split; [num|]. split; [num|]. split; [right; eexists; reflexivity|reflexivity]. }
  split; [reflexivity|]. split; [discriminate|]. split.
  { constructor; [|constructor; [|constructor]]; (split; [cbn; tauto|]); cbn [rn_pages rn_title seq map]; (eexists; eexists; split; [reflexivity|]); (split; [eexists; eexists; split; [reflexivity|]|]);
      [exact F5| |exact S2|constructor]. constructor; [|constructor]. right. eexists. eexists. split; [reflexivity|]. rewrite F2. cbn. intuition discriminate. }
  split; [split; [discriminate|exact Logic.I]|]. split; [|reflexivity].
  change (filter _ _) with [mk_run laws_title [map Q (seq 2 8)]]. cbn [map]. constructor; [|constructor]. unfold run_content. cbn [rn_title rn_pages flat_map seq map page_content].
  rewrite S2. change (str_eqb (u8 "II. Törvények") laws_title) with true. cbv iota. rewrite app_nil_r.
  rewrite <- S4.
  apply (laws_next (mk_date 2020 1 2) [] (Q 3%nat) (Q 4%nat) [Q 5%nat] (u8 "a példáról") ([Q 6%nat] ++ [Q 7%nat; Q 8%nat; Q 9%nat]) [Q 6%nat] (Q 7%nat) (Q 8%nat) (Q 9%nat) [EMPTY_LINE]).
  - constructor.
  - exact S3.
  - rewrite S4. exists 50%N, 48%N, 50%N, 48%N, 46%N, (u8 "I"), 46%N, []. cbn. repeat split; try tauto; try discriminate. repeat constructor.
  - exists [], (Q 5%nat). cbn [app map]. rewrite S5. split; [reflexivity|]. split; [constructor|]. split; [discriminate|reflexivity].
  - split; [discriminate|]. split; [exact S7|]. split; [rewrite S9; exists []; left; reflexivity|].
    assert (T : forall (a : list line) x y z b, [Q 6%nat] ++ [Q 7%nat; Q 8%nat] = a ++ [x; y; z] ++ b -> a <> [] -> False).
    { intros a x y z b E N. apply (f_equal (@length line)) in E. rewrite !app_length in E. cbn [length] in E. destruct a; [contradiction|]. cbn [length] in E. lia. }
    split; [intros a x y z b E N; destruct (T _ _ _ _ _ E N)|]. left. split; [reflexivity|]. intros a x y z b E N. destruct (T _ _ _ _ _ E N).
  - apply (laws_end _ [] [EMPTY_LINE]); [constructor|]. right. exists EMPTY_LINE. split; reflexivity.
Qed.

Definition c76_law : law_text := mk_law (u8 "2020. évi I. törvény") (mk_date 2020 1 2) (u8 "a példáról") [c76_second 6].
Lemma c76_laws : issue_printed (mk_date 2020 1 2) (map c76_page c76_css) [c76_law].
Proof. rewrite c76_pages_are. apply c76_laws_of; vm_compute; reflexivity. Qed.

(* the act that it is *)
Definition c76_article (m : sae_meta) : act :=
  mk_act (u8 "2020. évi I. törvény") (mk_date 2020 1 2) (u8 "a példáról") [] [AArticle (mk_article (u8 "1") None [mk_sae KParagraph None (Some c70_next) None None None m])].
Definition c76_act : act := c76_article (mk_meta (Some []) (Some []) (Some [EnforcementDate None (EDaysAfterPublication 8) None])).
Lemma c76_written l l1 : l_content l = u8 "1. § " ++ c70_next -> l_slice l 5 None = Ok l1 -> typed l1 -> l_content l1 = c70_next -> LawSpec.law_written c76_act [l].
Proof.
  intros C S T C1. assert (O : ordinary c70_next) by (apply looks_ordinary_ok; vm_compute; reflexivity).
  exists (c76_article NO_META), (c76_article NO_META). split; [|split; [|split; [reflexivity|]]].
  - apply (layout_act _ [] EMPTY_LINE [l]); [apply preamble_end|exists []; split; constructor| |discriminate]. apply (layout_with_article true true _ None EMPTY_LINE l l [] []).
    + apply (layout_article true (u8 "1") [32%N] l l1 c70_next [] None [l1] [] [l1]).
      * constructor; [constructor; [lia|constructor]|discriminate].
      * right. reflexivity.
      * exact C.
      * no_newline_now.
      * exact S.
      * eapply StructSpec.untitled; [rewrite C1; reflexivity|discriminate].
      * reflexivity.
      * constructor.
      * apply Nat.le_0_l.
      * apply layout_one; [intros B; apply blank_content in B; rewrite C1 in B; discriminate| |discriminate].
        apply (layout_same _ _ _ (line_of 20 c70_next)); [exact T|rewrite C1; symmetry; apply line_content|].
        apply (layout_text true KParagraph (u8 "1") None _ (line_of 20 c70_next)).
        -- exact (ordinary_header _ _ _ _ None 20 20 _ class_paragraph O eq_refl).
        -- constructor.
        -- apply one_text. discriminate.
        -- constructor; [vm_compute; discriminate|]. vm_compute. constructor.
        -- constructor; [intros _; exact (ordinary_starts _ _ _ _ None 20 _ class_paragraph eq_refl O)|constructor].
    + exact Logic.I.
    + assert (Z : open_after [l] = 0) by (rewrite open_after_cons, C; vm_compute; reflexivity). apply single_balanced, Z.
    + constructor; [unfold one_line; rewrite C; no_newline_now|constructor].
    + apply calm_end.
    + constructor.
  - split; [reflexivity|]. split; [reflexivity|]. split; [reflexivity|]. split; [reflexivity|]. constructor; [|constructor]. split; [reflexivity|]. split; [reflexivity|].
    constructor; [|constructor]. apply amends_nothing. intros cs E. discriminate.
  - change (readings_of (c76_article NO_META)) with [mk_reading (Some c70_next) [] []]. eapply says_next; [|reflexivity|constructor].
    eapply (says_sentence [] c70_next [] [] c70_next [] [EnforcementDate None (EDaysAfterPublication 8) None] [] (abbreviations_map []));
      [apply fix_end_spec; vm_compute; reflexivity|apply worth_spec; split; vm_compute; reflexivity| |apply map_meaning|constructor|apply Permutation_refl|constructor].
    apply sen_enforcement; [exact (proj2 (proj2 (proj2 (proj2 C70_found_ex))))|constructor; [split; exact Logic.I|constructor]].
Qed.
Definition c76_net (url : pystr) : res bytes := if str_eqb url (get_url 2020 1) then Ok (u8 "%PDF") else Err OSError.
Definition c76_miner (b : bytes) : res (list event) := Ok (flat_map page_events c76_css).
Lemma c76_served : served c76_net c76_miner [] (2020, 1) [c76_act].
Proof.
  exists (u8 "%PDF"), c76_css. split; [vm_compute; reflexivity|]. split; [reflexivity|]. exists (mk_date 2020 1 2), (map c76_page c76_css), [c76_law]. split; [exact c76_drawn_pages|]. split; [exact c76_laws|].
  constructor; [|constructor]. exists [c76_second 6]. split; [reflexivity|]. split; [|split; [|repeat split; reflexivity]].
  - assert (X : exists l1, l_slice (c76_second 6) 5 None = Ok l1 /\ forallb (fun p => Nat.eqb (length (p_content p)) 1) (l_parts l1) = true /\ l_content l1 = c70_next)
      by (eexists; split; [vm_compute; reflexivity|split; vm_compute; reflexivity]).
    destruct X as (l1 & S & T & C1). apply (c76_written (c76_second 6) l1); [vm_compute; reflexivity|exact S| |exact C1].
    unfold typed. apply Forall_forall. rewrite forallb_forall in T. intros p Hp. apply Nat.eqb_eq. auto.
  - constructor; [|constructor]. assert (X : (let fin x := match x with SpecFloat.S754_zero _ | SpecFloat.S754_finite _ _ _ => true | _ => false end in
      fin (l_margin_right (c76_second 6)) && forallb (fun p => fin (p_dx p)) (l_parts (c76_second 6)) && (20 * Z.of_nat (length (l_parts (c76_second 6))) <? 2 ^ 300)) = true) by (vm_compute; reflexivity).
    revert X. generalize (c76_second 6). intros l X. cbv zeta in X. apply andb_true_iff in X as [X L]. apply andb_true_iff in X as [M P]. rewrite forallb_forall in P.
    split; [destruct (l_margin_right l); try discriminate; exact Logic.I|]. split; [|now apply Z.ltb_lt]. apply Forall_forall. intros p I. specialize (P p I). destruct (p_dx p); try discriminate; exact Logic.I.
Qed.
(* the acts of an issue with one law, and the file that is written of it *)
Definition c76_args : args := mk_args Json [(2020, 1)] (Some (u8 "out")) None full 4.
Definition c76_writers : writers := mk_writers c50_wrapper enc (fun _ _ => []).
Definition c76_start : cli_state := mk_cli (mk_fs (fun p => if str_eqb p (u8 "other") then Some (u8 "régi") else None) (fun _ => false)) [].
Example C76_ex : served c76_net c76_miner [] (2020, 1) [c76_act] /\
  exists fuel s' t d v, run (env_of c76_net c76_miner []) c76_writers c76_args fuel [ODownload 2020 1] c76_start = Some (s', None) /\ cs_stdout s' = [] /\
    fs_file (cs_fs s') (u8 "out/2020. évi I. törvény.json") = Some t /\ example_read t = Ok d /\ to_object hun_table d (TClass (u8 "Act")) = Ok v /\ py_eq hun_table (act_value c76_act) v = true /\
    fs_file (cs_fs s') (u8 "other") = Some (u8 "régi").
Proof.
  split; [exact c76_served|]. destruct (C76_files c76_net c76_miner [] c76_writers example_read c76_args (u8 "out") [[c76_act]] [ODownload 2020 1] c76_start) as (fuel & s' & R & O & F & K);
    [exact c50_splits|exact (fun d P => proj1 (example_codec d P))|reflexivity|reflexivity|reflexivity|constructor; [exact c76_served|constructor]|apply Permutation_refl| | | |].
  - cbn. repeat constructor. intros [].
  - split; [discriminate|]. repeat constructor.
  - intros c [<-|[]]. split; [|reflexivity]. intros I. vm_compute in I. repeat (destruct I as [I|I]; [discriminate|]). destruct I.
  - destruct (F c76_act (or_introl eq_refl)) as (t & d & v & T & L & V & E); [right; right; discriminate|]. exists fuel, s', t, d, v.
    repeat (split; [assumption|]). rewrite K; [reflexivity|]. intros c [<-|[]] _. discriminate.
Qed.
