(* C45, C46: the sections of an issue and the laws in them. *)
From Coq Require Import Lia.
From Verif Require Import PyBase PyBaseFacts IdModel LineModel DateModel GazModel GazSpec GazProofs GazProofs2.
Local Open Scope Z_scope.

(** C45 *)
Theorem C45_sections : forall k,
  (exists rs, flat_map rn_pages rs = written_pages k /\ rs <> [] /\ Forall good_run rs /\ changing rs /\
     section_extractor k = mk_gen (laws_of_runs (is_date k) rs) None) \/
  (written_pages k = [] /\ section_extractor k = mk_gen [] (Some AssertionError)) \/
  (exists p r, written_pages k = p :: r /\ untitled p /\ section_extractor k = mk_gen [] (Some ValueError)).
Proof. exact sections_ok. Qed.
Print Assumptions C45_sections.
Theorem C45_unique : forall rs ss, Forall good_run rs -> Forall good_run ss -> changing rs -> changing ss ->
  flat_map rn_pages rs = flat_map rn_pages ss -> rs = ss.
Proof. exact runs_unique. Qed.
Print Assumptions C45_unique.
Theorem C45_in_order : forall k, in_order (filter (fun l => negb (is_empty_line l)) (flat_map ls_lines (g_items (section_extractor k)))) (concat (written_pages k)).
Proof. exact lines_ok. Qed.
Print Assumptions C45_in_order.
Theorem C45_recognized : forall l p pages dl, nth_error (l :: p) 3 = Some dl ->
  ((exists u w, l_content l = u ++ u8 "MAGYAR KÖZLÖNY" ++ w) ->
     header_extractor ((l :: p) :: pages) =
       match from_hungarian_text (l_content dl) with
       | Ok d => mk_gen [mk_issue d (mk_headed (firstn 5 (l :: p)) (skipn 5 (l :: p)) :: map (fun q => mk_headed (firstn 2 q) (skipn 2 q)) ((l :: p) :: pages))] None
       | Err e => mk_gen [] (Some e)
       end) /\
  (~ (exists u w, l_content l = u ++ u8 "MAGYAR KÖZLÖNY" ++ w) -> header_extractor ((l :: p) :: pages) = mk_gen [] None).
Proof. exact recognized_ok. Qed.
Print Assumptions C45_recognized.

Definition c45_line (s : pystr) : line := mk_line [mk_part f_zero s false] f_zero.
Definition c45_first := map c45_line [u8 "A MAGYAR KÖZLÖNY 71. száma"; u8 "-"; u8 "HIVATALOS LAP"; u8 "2011. június 28., kedd"; u8 "--"; u8 "Tartalom"].
Example C45_recognized_ex : header_extractor [c45_first] =
    mk_gen [mk_issue (mk_date 2011 6 28) [mk_headed (firstn 5 c45_first) [c45_line (u8 "Tartalom")]; mk_headed (firstn 2 c45_first) (skipn 2 c45_first)]] None /\
  header_extractor [tl c45_first] = mk_gen [] None.
Proof. split; vm_compute; reflexivity. Qed.
Definition c45_law (id : pystr) : list line :=
  [c45_line id; c45_line (u8 "a példáról*"); c45_line (u8 "1. § Ez az."); EMPTY_LINE;
   c45_line (u8 "Áder János s. k., Kövér László s. k.,"); c45_line (u8 "köztársasági elnök az Országgyűlés elnöke")].
Definition c45_date := mk_date 2011 6 28.
Definition c45_issue := mk_issue c45_date
  [ mk_headed [] [c45_line (u8 "Tartalomjegyzék"); c45_line (u8 "Valami 3")];
    mk_headed [] [];
    mk_headed [] ([c45_line (u8 "II. Törvények"); EMPTY_LINE] ++ c45_law (u8 "2011. évi CV. törvény"));
    mk_headed [] (c45_law (u8 "2011. évi CVI. törvény"));
    mk_headed [] [c45_line (u8 "III. Kormányrendeletek"); c45_line (u8 "Rendelet")] ].
Definition c45_runs :=
  [ mk_run (u8 "Tartalomjegyzék") [[c45_line (u8 "Tartalomjegyzék"); c45_line (u8 "Valami 3")]];
    mk_run (u8 "II. Törvények") [[c45_line (u8 "II. Törvények"); EMPTY_LINE] ++ c45_law (u8 "2011. évi CV. törvény"); c45_law (u8 "2011. évi CVI. törvény")];
    mk_run (u8 "III. Kormányrendeletek") [[c45_line (u8 "III. Kormányrendeletek"); c45_line (u8 "Rendelet")]] ].
Example C45_ex : flat_map rn_pages c45_runs = written_pages c45_issue /\ Forall good_run c45_runs /\ changing c45_runs /\
  map (fun s => map l_content (ls_lines s)) (laws_of_runs c45_date c45_runs) =
  [[u8 ""; u8 "2011. évi CV. törvény"; u8 "a példáról*"; u8 "1. § Ez az."; u8 ""; u8 "Áder János s. k., Kövér László s. k.,"; u8 "köztársasági elnök az Országgyűlés elnöke"; u8 "";
    u8 "2011. évi CVI. törvény"; u8 "a példáról*"; u8 "1. § Ez az."; u8 ""; u8 "Áder János s. k., Kövér László s. k.,"; u8 "köztársasági elnök az Országgyűlés elnöke"; u8 ""]].
Proof.
  assert (T : forall t r, titled t (c45_line t :: r)) by (intros t r; exists (c45_line t), r; split; [reflexivity|apply app_nil_r]).
  assert (I : forall t, is_section_title t = true -> In t titles) by (intros t H; apply title_ok; exact H).
  split; [vm_compute; reflexivity|]. split; [|split; [|vm_compute; reflexivity]].
  - constructor; [|constructor; [|constructor; [|constructor]]]; (split; [apply I; vm_compute; reflexivity|]); (do 2 eexists; split; [reflexivity|]); (split; [apply T|]).
    + constructor.
    + constructor; [|constructor]. right. do 2 eexists. split; [reflexivity|]. intros H. apply title_ok in H. vm_compute in H. discriminate.
    + constructor.
  - split; [discriminate|]. split; [discriminate|exact Logic.I].
Qed.

(* The first page is processed twice: as the page with the title, and with the other pages.  If the
   laws begin on it, they are found twice. *)
Definition c45_front := [c45_line (u8 "MAGYAR KÖZLÖNY 71. szám"); c45_line (u8 "-"); c45_line (u8 "A MAGYAR KÖZTÁRSASÁG HIVATALOS LAPJA"); c45_line (u8 "2011. június 28., kedd"); c45_line (u8 "--");
  c45_line (u8 "II. Törvények"); EMPTY_LINE] ++ c45_law (u8 "2011. évi CV. törvény").
Theorem C45_first_page_refuted : ~ forall pages k s,
  g_items (header_extractor pages) = [k] -> g_items (section_extractor k) = [s] ->
  NoDup (map l_content (filter (fun l => negb (is_empty_line l)) (concat pages))) -> NoDup (map lw_identifier (g_items (law_extractor s))).
Proof.
  intros H.
  assert (D : forall l : list pystr, (fix go l := match l with [] => true | x :: t => negb (existsb (str_eqb x) t) && go t end)%bool l = true -> NoDup l).
  { induction l as [|x l IH]; [constructor|]. intros E. apply andb_prop in E as [E1 E2]. constructor; [|exact (IH E2)]. intros I.
    assert (existsb (str_eqb x) l = true) by (apply existsb_exists; exists x; split; [exact I|apply str_eqb_refl]). rewrite H0 in E1. discriminate. }
  destruct (g_items (section_extractor (hd (mk_issue c45_date []) (g_items (header_extractor [c45_front]))))) as [|s [|? ?]] eqn:E2; vm_compute in E2; try discriminate.
  specialize (H [c45_front] (hd (mk_issue c45_date []) (g_items (header_extractor [c45_front]))) s).
  assert (N : NoDup (map lw_identifier (g_items (law_extractor s)))).
  { apply H; [vm_compute; reflexivity|injection E2 as <-; vm_compute; reflexivity|apply D; vm_compute; reflexivity]. }
  injection E2 as <-. match type of N with NoDup ?l => let v := eval vm_compute in l in change (NoDup v) in N end. inversion N as [|? ? X]. apply X. left. reflexivity.
Qed.
Print Assumptions C45_first_page_refuted.

(** C46 *)
Theorem C46_laws : forall s, laws_among (ls_date s) (ls_lines s) (g_items (law_extractor s)).
Proof. exact laws_sound. Qed.
Print Assumptions C46_laws.
Theorem C46_found : forall d gap e h ls subject raw body x y z rest,
  Forall (fun l => ~ blank l) gap -> blank e -> law_header (l_content h) -> subject_written ls subject -> text_ends raw body x y z ->
  let g := law_extractor (mk_section d rest) in
  law_extractor (mk_section d (gap ++ [e; h] ++ ls ++ raw ++ rest)) = mk_gen (mk_law (l_content h) d subject body :: g_items g) (g_end g).
Proof. exact laws_found. Qed.
Print Assumptions C46_found.

(* a law with a footnote and a subject of two lines; behind a first law that is found *)
Definition c46_subject := [c45_line (u8 "a példák"); c45_line (u8 "egyik fajtájáról*")].
Definition c46_text := [c45_line (u8 "1. § Ez az."); EMPTY_LINE; c45_line (u8 "* A törvényt az Országgyűlés elfogadta."); EMPTY_LINE; c45_line (u8 "2. § Meg az.")].
Definition c46_clean := [c45_line (u8 "1. § Ez az."); EMPTY_LINE; c45_line (u8 "2. § Meg az.")].
Definition c46_end := [EMPTY_LINE; c45_line (u8 "Áder János s. k., Kövér László s. k.,"); c45_line (u8 "köztársasági elnök az Országgyűlés alelnöke")].
Lemma c46_header : law_header (u8 "2011. évi CVI. törvény").
Proof. apply header_ok. vm_compute. reflexivity. Qed.
Lemma c46_subject_ok : subject_written c46_subject (u8 "a példák egyik fajtájáról").
Proof.
  exists [c45_line (u8 "a példák")], (c45_line (u8 "egyik fajtájáról*")). split; [reflexivity|]. split; [|split; [discriminate|vm_compute; reflexivity]].
  constructor; [|constructor]. intros (t & T).
  assert (L : last_chr (l_content (c45_line (u8 "a példák"))) = Ok 42%N) by (rewrite T; unfold last_chr; rewrite rev_app_distr; reflexivity). vm_compute in L. discriminate.
Qed.
Lemma not_signature s : match_footer s = false -> ~ signature s.
Proof. intros H S. apply footer_ok in S. congruence. Qed.
Lemma c46_text_ok : text_ends (c46_text ++ c46_end) c46_clean EMPTY_LINE (c45_line (u8 "Áder János s. k., Kövér László s. k.,")) (c45_line (u8 "köztársasági elnök az Országgyűlés alelnöke")).
Proof.
  assert (S : forall l, Forall (fun l => match_footer (l_content l) = false) l -> unsigned l).
  { intros l F a x y z b -> _ _. apply not_signature. rewrite Forall_forall in F. apply F. apply in_or_app. right. apply in_or_app. left. cbn. auto. }
  split; [discriminate|]. split; [reflexivity|]. split; [apply footer_ok; vm_compute; reflexivity|]. split; [apply S; repeat (apply Forall_cons; [vm_compute; reflexivity|]); apply Forall_nil|].
  right. exists [c45_line (u8 "1. § Ez az.")], EMPTY_LINE, (c45_line (u8 "* A törvényt az Országgyűlés elfogadta.")), EMPTY_LINE,
    [c45_line (u8 "2. § Meg az."); EMPTY_LINE; c45_line (u8 "Áder János s. k., Kövér László s. k.,")]. eexists.
  split; [reflexivity|]. split; [reflexivity|]. split; [discriminate|]. split; [reflexivity|]. split; [reflexivity|]. split; [reflexivity|]. split.
  - intros a x y z b E A. exfalso. destruct a as [|? [|? [|? [|? a]]]]; [contradiction|discriminate..].
  - apply S. repeat (apply Forall_cons; [vm_compute; reflexivity|]). apply Forall_nil.
Qed.
Example C46_ex :
  law_extractor (mk_section c45_date ([c45_line (u8 "II."); EMPTY_LINE; c45_line (u8 "2011. évi CVI. törvény")] ++ c46_subject ++ (c46_text ++ c46_end) ++ [EMPTY_LINE] ++ c45_law (u8 "2011. évi CVII. törvény"))) =
  mk_gen [ mk_law (u8 "2011. évi CVI. törvény") c45_date (u8 "a példák egyik fajtájáról") c46_clean;
           mk_law (u8 "2011. évi CVII. törvény") c45_date (u8 "a példáról") [c45_line (u8 "1. § Ez az.")] ] None.
Proof. vm_compute. reflexivity. Qed.

(* A law behind two blank lines is not found. *)
Theorem C46_blank_refuted : ~ forall d gap e h ls subject raw body x y z rest,
  blank e -> law_header (l_content h) -> subject_written ls subject -> text_ends raw body x y z ->
  In (mk_law (l_content h) d subject body) (g_items (law_extractor (mk_section d (gap ++ [e; h] ++ ls ++ raw ++ rest)))).
Proof.
  intros H. specialize (H c45_date [EMPTY_LINE] EMPTY_LINE (c45_line (u8 "2011. évi CVI. törvény")) _ _ _ _ _ _ _ [] eq_refl c46_header c46_subject_ok c46_text_ok).
  vm_compute in H. exact H.
Qed.
Print Assumptions C46_blank_refuted.
(* A law whose signatures are not recognised takes the next law into its text. *)
Theorem C46_swallowed_refuted : ~ forall s w, In w (g_items (law_extractor s)) ->
  forall a e h b, lw_body w = a ++ [e; h] ++ b -> blank e -> ~ law_header (l_content h).
Proof.
  intros H. set (s := mk_section c45_date ([EMPTY_LINE] ++ firstn 3 (c45_law (u8 "2011. évi CV. törvény")) ++ [EMPTY_LINE] ++ c45_law (u8 "2011. évi CVI. törvény"))).
  destruct (g_items (law_extractor s)) as [|w l] eqn:E; vm_compute in E; [discriminate|]. injection E as <- <-.
  refine (H s _ _ [c45_line (u8 "1. § Ez az.")] EMPTY_LINE (c45_line (u8 "2011. évi CVI. törvény")) [c45_line (u8 "a példáról*"); c45_line (u8 "1. § Ez az.")] _ eq_refl c46_header).
  - vm_compute. left. reflexivity.
  - vm_compute. reflexivity.
Qed.
Print Assumptions C46_swallowed_refuted.
(* Three blank lines in the text are an error, and the laws behind them are lost. *)
Theorem C46_error_refuted : ~ forall s, g_end (law_extractor s) = None.
Proof.
  intros H. specialize (H (mk_section c45_date ([EMPTY_LINE] ++ firstn 3 (c45_law (u8 "2011. évi CV. törvény")) ++ [EMPTY_LINE; EMPTY_LINE; EMPTY_LINE] ++ c46_end))).
  vm_compute in H. discriminate.
Qed.
Print Assumptions C46_error_refuted.
