(* Proofs for WorkSpec: what holds in every system that workers come to. *)
From Coq Require Import Lia.
From Verif Require Import PyBase PyBaseFacts IdModel LineModel TreeModel SemModel FixupModel PegModel PdfModel GazModel D2oModel D2oSpec D2oHun JsonSpec CacheModel CacheSpec CacheProofs ExtModel ExtSpec ExtProofs
  PipeModel CliModel CliSpec RunModel RunSpec RunProofs RunProofs2 WorkModel WorkSpec.
Local Open Scope Z_scope.

(** * One step *)
Lemma put_next (b : bytes) k c : nth_error b k = Some c -> put_byte k c (firstn k b) = firstn (S k) b.
Proof.
  intros H. assert (L : (k < List.length b)%nat) by (apply nth_error_Some; rewrite H; discriminate). unfold put_byte. rewrite firstn_firstn, Nat.min_id, firstn_length_le by lia. rewrite Nat.sub_diag. cbn [repeat app].
  rewrite skipn_all2 by (rewrite firstn_length; lia). clear L. revert k H. induction b as [|a b IH]; intros [|k] H; try discriminate; [injection H as ->; reflexivity|]. cbn [firstn app]. f_equal. exact (IH k H).
Qed.
Lemma next_le (b : bytes) k c : nth_error b k = Some c -> (S k <= List.length b)%nat.
Proof. intros H. apply nth_error_Some. rewrite H. discriminate. Qed.
Lemma done_all (b : bytes) k : (k <= List.length b)%nat -> nth_error b k = None -> firstn k b = b.
Proof. intros L H. apply nth_error_None in H. apply firstn_all2. lia. Qed.

Section work.
Context (su : setup).
Let cache := su_cache su.
(* what a step for an issue changes *)
Record touches (i : Z * Z) (f f' : fs) : Prop := mk_touches {
  to_other : forall p, p <> issue_path cache i -> p <> lines_path cache i -> fs_file f' p = fs_file f p;
  to_more : forall q, fs_dir f q = true -> fs_dir f' q = true;
  to_dirs : forall q, fs_dir f' q = true -> fs_dir f q = true \/ In q (issue_dirs cache i)
}.
Lemma touches_refl i f : touches i f f.
Proof. constructor; auto. Qed.
Lemma touches_set i f p b : p = issue_path cache i \/ p = lines_path cache i -> touches i f (set_file p b f).
Proof. intros P. constructor; [|intros q H; exact H|intros q H; left; exact H]. intros r N1 N2. apply set_other. destruct P as [->| ->]; assumption. Qed.
Lemma touches_dirs i f : touches i f (add_dirs (issue_dirs cache i) f).
Proof.
  constructor; [reflexivity| |].
  - intros q H. cbn [add_dirs fs_dir]. rewrite H. apply Bool.orb_true_r.
  - intros q H. cbn [add_dirs fs_dir] in H. apply Bool.orb_true_iff in H as [H|H]; [right|left; exact H]. unfold mem_str in H. apply existsb_exists in H as (r & I & E). apply str_eqb_eq in E. subst r. exact I.
Qed.
Lemma makedirs_final i f : final f (io_makedirs (path_dirname (issue_path cache i)) f) = f \/ final f (io_makedirs (path_dirname (issue_path cache i)) f) = add_dirs (issue_dirs cache i) f.
Proof. unfold io_makedirs. destruct (_ || _); unfold final; cbn [o_states last]; [left|right]; reflexivity. Qed.
Lemma step_touches i ph f ph' f' u : worker_step su i ph f = (ph', f', u) -> touches i f f'.
Proof.
  unfold worker_step. fold cache. fold (issue_path cache i) (lines_path cache i). cbv zeta.
  destruct ph; intros H;
    try (apply (f_equal (fun x => snd (fst x))) in H; cbn [fst snd] in H; subst f'; apply touches_refl).
  - apply (f_equal (fun x => snd (fst x))) in H. cbn [fst snd] in H. subst f'. destruct (makedirs_final i f) as [->| ->]; [apply touches_refl|apply touches_dirs].
  - destruct (can_open _ _); apply (f_equal (fun x => snd (fst x))) in H; cbn [fst snd] in H; subst f'; [apply touches_set; left; reflexivity|apply touches_refl].
  - destruct (nth_error _ _); apply (f_equal (fun x => snd (fst x))) in H; cbn [fst snd] in H; subst f'; [apply touches_set; left; reflexivity|apply touches_refl].
  - destruct (can_open _ _); apply (f_equal (fun x => snd (fst x))) in H; cbn [fst snd] in H; subst f'; [apply touches_set; right; reflexivity|apply touches_refl].
  - destruct (nth_error _ _); apply (f_equal (fun x => snd (fst x))) in H; cbn [fst snd] in H; subst f'; [apply touches_set; right; reflexivity|apply touches_refl].
Qed.

Context (e : env) (s0 : fs) (issues : list (Z * Z)).
Hypothesis Codec : codec (su_write su) (su_read su).
Hypothesis Nodup : NoDup issues.

Definition source (i : Z * Z) (b : bytes) : Prop :=
  let f := mk_pdf b (issue_cache_id (fst i) (snd i)) in
  e_download e (fst i) (snd i) = mk_gen [f] None /\ e_lines e f = one (fun p => p) (parse_pdf (su_miner su) b) /\ (forall pages, parse_pdf (su_miner su) b = Ok pages -> clean_pages pages).
Definition only_pdf (f : fs) (i : Z * Z) (b : bytes) : Prop :=
  source i b /\ fs_file f (issue_path cache i) = Some b /\ fs_file f (lines_path cache i) = None /\ fs_dir f (path_dirname (issue_path cache i)) = true.
Definition has (f : fs) (i : Z * Z) (b : bytes) : Prop := only_pdf f i b \/ (stored su e f i /\ fs_file f (issue_path cache i) = Some b).
Definition none_yet (f : fs) (i : Z * Z) (b : bytes) : Prop := source i b /\ fs_file f (issue_path cache i) = None /\ fs_file f (lines_path cache i) = None.
Definition phase_ok (f : fs) (i : Z * Z) (ph : phase) : Prop :=
  match ph with
  | AtStart => agrees su e f i /\ fs_file f (issue_path cache i) = fs_file s0 (issue_path cache i)
  | AtNet => agrees su e f i /\ fs_file f (issue_path cache i) = None /\ fs_file s0 (issue_path cache i) = None
  | AtDirs b => none_yet f i b
  | AtOpen b => none_yet f i b /\ fs_dir f (path_dirname (issue_path cache i)) = true
  | Writing b k => source i b /\ (k <= List.length b)%nat /\ fs_file f (issue_path cache i) = Some (firstn k b) /\ fs_file f (lines_path cache i) = None /\
      fs_dir f (path_dirname (issue_path cache i)) = true /\ fs_file s0 (issue_path cache i) = None
  | AtFile => exists b, has f i b
  | AtLines b => has f i b
  | AtLoad => stored su e f i
  | AtParse b => only_pdf f i b
  | AtLinesOpen x pages => exists b, only_pdf f i b /\ parse_pdf (su_miner su) b = Ok pages /\ x = pages_json pages
  | WritingLines x pages k => exists b, source i b /\ fs_file f (issue_path cache i) = Some b /\ parse_pdf (su_miner su) b = Ok pages /\ x = pages_json pages /\
      (k <= List.length (su_write su x))%nat /\ fs_file f (lines_path cache i) = Some (firstn k (su_write su x)) /\ fs_file s0 (lines_path cache i) = None
  | Finished r => told e i r /\ (forall pages, r = Ok pages -> stored su e f i)
  end.
Definition rd (f : fs) (i : Z * Z) : Prop := can_make f (path_dirname (issue_path cache i)) /\ fs_dir f (issue_path cache i) = false /\ fs_dir f (lines_path cache i) = false.
Definition kept (f : fs) (i : Z * Z) : Prop := forall p, p = issue_path cache i \/ p = lines_path cache i -> fs_file s0 p <> None -> fs_file f p = fs_file s0 p.

Lemma phase_same f f' i ph : fs_file f' (issue_path cache i) = fs_file f (issue_path cache i) -> fs_file f' (lines_path cache i) = fs_file f (lines_path cache i) ->
  fs_dir f' (issue_path cache i) = false -> fs_dir f' (lines_path cache i) = false ->
  (fs_dir f (path_dirname (issue_path cache i)) = true -> fs_dir f' (path_dirname (issue_path cache i)) = true) -> phase_ok f i ph -> phase_ok f' i ph.
Proof.
  intros E1 E2 D1 D2 M. pose proof (agrees_same su e i f f' E1 E2 D1 D2 M) as Ag.
  assert (St : stored su e f i -> stored su e f' i).
  { intros (b & t & pages & X). exists b, t, pages. cbv zeta in *. fold cache in X |- *. rewrite E1, E2. exact X. }
  assert (On : forall b, only_pdf f i b -> only_pdf f' i b) by (intros b (X1 & X2 & X3 & X4); unfold only_pdf; rewrite E1, E2; auto).
  assert (Ha : forall b, has f i b -> has f' i b) by (intros b [X|[X1 X2]]; [left|right; rewrite E1]; auto).
  destruct ph; cbn [phase_ok]; unfold none_yet; rewrite ?E1, ?E2.
  - intros [X Y]. auto.
  - intros [X Y]. auto.
  - auto.
  - intros [X Y]. auto.
  - intros (X1 & X2 & X3 & X4 & X5 & X6). auto 10.
  - intros (b & X). exists b. auto.
  - auto.
  - auto.
  - auto.
  - intros (b & X & Y). exists b. auto.
  - auto.
  - intros [X Y]. split; [exact X|]. intros pages H. apply St. exact (Y pages H).
Qed.
Lemma there_absent f p : fs_file f p = None -> fs_dir f p = false -> is_there p f = false.
Proof. unfold is_there. intros -> ->. reflexivity. Qed.
Lemma can_open_ok f p : fs_dir f (path_dirname p) = true -> fs_dir f p = false -> can_open p f = true.
Proof. unfold can_open. intros -> ->. destruct (path_dirname p); reflexivity. Qed.
Lemma told_source i b : source i b -> told e i (parse_pdf (su_miner su) b).
Proof.
  intros (D & L & _). right. eexists. split; [exact D|]. rewrite L. destruct (parse_pdf (su_miner su) b) as [pages|x]; [right; exists pages|left; exists x]; split; reflexivity.
Qed.
Lemma step_ok f i ph ph' f' u : rd f i -> phase_ok f i ph -> kept f i -> worker_step su i ph f = (ph', f', u) -> rd f' i /\ phase_ok f' i ph' /\ kept f' i.
Proof.
  intros R P K H. pose proof (step_touches _ _ _ _ _ _ H) as [TO TM TD].
  assert (R' : rd f' i).
  { destruct R as ([Ne F] & D1 & D2). split; [split; [exact Ne|]|split].
    - apply Forall_forall. intros r Ir. pose proof (file_no_dir cache i i r Ir) as [N1 N2]. rewrite TO by assumption. rewrite Forall_forall in F. exact (F r Ir).
    - destruct (fs_dir f' (issue_path cache i)) eqn:E; [|reflexivity]. apply TD in E as [E|E]; [congruence|]. destruct (proj1 (file_no_dir cache i i _ E) eq_refl).
    - destruct (fs_dir f' (lines_path cache i)) eqn:E; [|reflexivity]. apply TD in E as [E|E]; [congruence|]. destruct (proj2 (file_no_dir cache i i _ E) eq_refl). }
  split; [exact R'|]. clear R' TO TM TD. destruct R as (Mk & D1 & D2). unfold worker_step in H. fold cache in H. fold (issue_path cache i) (lines_path cache i) in H. cbv zeta in H.
  assert (Nl : lines_path cache i <> issue_path cache i) by (intros X; symmetry in X; exact (path_not_lines cache _ _ X)).
  assert (Nl' : issue_path cache i <> lines_path cache i) by (intros X; exact (Nl (eq_sym X))).
  assert (Fresh : forall p, p = issue_path cache i \/ p = lines_path cache i -> fs_file f p = None -> fs_file s0 p = None).
  { intros p I N. destruct (fs_file s0 p) eqn:E; [|reflexivity]. rewrite (K p I) in N by (rewrite E; discriminate). congruence. }
  assert (K1 : fs_file s0 (issue_path cache i) = None -> forall b g, (forall p, fs_file g p = fs_file f p) -> kept (set_file (issue_path cache i) b g) i).
  { intros N b g G p I Np. rewrite set_other by (intros ->; contradiction). rewrite G. exact (K p I Np). }
  assert (K2 : fs_file s0 (lines_path cache i) = None -> forall b, kept (set_file (lines_path cache i) b f) i).
  { intros N b p I Np. rewrite set_other by (intros ->; contradiction). exact (K p I Np). }
  destruct ph; cbn [phase_ok] in P.
  - destruct P as [A E0]. injection H as Hp <- _. split; [|exact K]. subst ph'.
    destruct A as [x Ab N D|b pf Ab Ab' N D L C|b pf F Ab Di D L C|St].
    + fold cache in Ab. rewrite there_absent by apply Ab. cbn [phase_ok]. split; [eapply ag_none; eassumption|]. split; [apply Ab|]. rewrite <- E0. apply Ab.
    + fold cache in Ab. rewrite there_absent by apply Ab. cbn [phase_ok]. split; [eapply (ag_net su e f i b); eassumption|]. split; [apply Ab|]. rewrite <- E0. apply Ab.
    + fold cache in F, Ab, Di. unfold is_there. rewrite F. cbn [phase_ok]. exists b. left. split; [split; [exact D|split; [exact L|exact C]]|]. split; [exact F|]. split; [apply Ab|exact Di].
    + pose proof St as (b & t & pages & _ & _ & _ & F & _). fold cache in F. unfold is_there. rewrite F. cbn [phase_ok]. exists b. right. split; [exact St|exact F].
  - destruct P as (A & N0 & E0). injection H as Hp <- _. split; [|exact K]. subst ph'. fold (issue_url i).
    destruct A as [x Ab N D|b pf Ab Ab' N D L C|b pf F Ab Di D L C|St].
    + rewrite N. cbn [phase_ok]. split; [left; exists x; auto|discriminate].
    + rewrite N. cbn [phase_ok]. split; [split; [exact D|split; [exact L|exact C]]|]. split; [exact N0|apply Ab'].
    + fold cache in F. congruence.
    + destruct St as (b & t & pages & _ & _ & _ & F & _). fold cache in F. congruence.
  - rewrite makedirs_ok in H by exact Mk. unfold final in H. cbn [o_res o_states last] in H. injection H as <- <- _. destruct P as (So & N1 & N2). split; [|exact K]. cbn [phase_ok]. split; [split; [exact So|split; [exact N1|exact N2]]|].
    cbn [add_dirs fs_dir]. unfold mem_str. cbn [existsb]. rewrite str_eqb_refl. reflexivity.
  - destruct P as [(So & N1 & N2) Di]. rewrite can_open_ok in H by assumption. injection H as <- <- _. pose proof (Fresh _ (or_introl eq_refl) N1) as F1. split; [|apply K1; [exact F1|reflexivity]].
    cbn [phase_ok]. split; [exact So|]. split; [lia|]. split; [apply set_same|]. split; [rewrite set_other by exact Nl; exact N2|]. split; [exact Di|exact F1].
  - destruct P as (So & Lk & Fi & N2 & Di & F1). destruct (nth_error data k) as [c|] eqn:Ek; injection H as <- <- _.
    + unfold write_at. rewrite Fi, (put_next _ _ _ Ek). split; [|apply K1; [exact F1|reflexivity]]. cbn [phase_ok]. split; [exact So|]. split; [exact (next_le _ _ _ Ek)|]. split; [apply set_same|].
      split; [rewrite set_other by exact Nl; exact N2|]. split; [exact Di|exact F1].
    + split; [|exact K]. cbn [phase_ok]. exists data. left. split; [exact So|]. rewrite (done_all _ _ Lk Ek) in Fi. auto.
  - destruct P as (b & P). assert (F : fs_file f (issue_path cache i) = Some b) by (destruct P as [(_ & F & _)|[_ F]]; exact F). rewrite F in H. injection H as <- <- _. split; [exact P|exact K].
  - injection H as Hp <- _. split; [|exact K]. subst ph'. destruct P as [(So & F & N2 & Di)|[St F]].
    + rewrite there_absent by assumption. cbn [phase_ok]. split; [exact So|auto].
    + pose proof St as (b & t & pages & _ & _ & _ & _ & T & _). fold cache in T. unfold is_there. rewrite T. exact St.
  - injection H as Hp <- _. split; [|exact K]. subst ph'. destruct P as (b & t & pages & D & L & C & F & T & R). fold cache in F, T. rewrite T, R. cbn [bind].
    destruct (pages_kept pages C) as (Td & Pl & v & V & Pg). rewrite V. cbn [bind]. rewrite Pg. cbn [no_pages phase_ok]. split; [right; eexists; split; [exact D|]; right; exists pages; auto|].
    intros _ _. exists b, t, pages. auto 10.
  - destruct P as (So & F & N2 & Di). pose proof So as (D & L & C). destruct (parse_pdf (su_miner su) data) as [pages|x] eqn:Ep; cbn [bind] in H.
    + destruct (pages_kept pages (C pages eq_refl)) as (Td & Pl & v & V & Pg). rewrite Td in H. cbn [bind] in H. injection H as <- <- _. split; [|exact K]. cbn [phase_ok]. exists data. split; [split; auto|].
      split; [exact Ep|reflexivity].
    + injection H as <- <- _. split; [|exact K]. cbn [phase_ok]. split; [|discriminate]. pose proof (told_source i data So) as X. rewrite Ep in X. exact X.
  - destruct P as (b & (So & F & N2 & Di) & Ep & ->). rewrite can_open_ok in H by (rewrite ?lines_dirname; assumption). injection H as <- <- _. pose proof (Fresh _ (or_intror eq_refl) N2) as F2. split; [|apply K2; exact F2].
    cbn [phase_ok]. exists b. split; [exact So|]. split; [rewrite set_other by exact Nl'; exact F|]. split; [exact Ep|]. split; [reflexivity|]. split; [lia|]. split; [apply set_same|exact F2].
  - destruct P as (b & So & F & Ep & -> & Lk & Fl & F2). destruct (nth_error (su_write su (pages_json pages)) k) as [c|] eqn:Ek;
      assert (X := f_equal (fun x => fst (fst x)) H); assert (Y := f_equal (fun x => snd (fst x)) H); cbn [fst snd] in X, Y; subst ph' f'; clear H.
    + unfold write_at. rewrite Fl, (put_next _ _ _ Ek). split; [|apply K2; exact F2]. cbn [phase_ok]. exists b. split; [exact So|]. split; [rewrite set_other by exact Nl'; exact F|]. split; [exact Ep|]. split; [reflexivity|].
      split; [exact (next_le _ _ _ Ek)|]. split; [apply set_same|exact F2].
    + split; [|exact K]. rewrite (done_all _ _ Lk Ek) in Fl. pose proof So as (D & L & C). specialize (C pages Ep). rewrite (pages_self pages C). cbn [no_pages phase_ok].
      split; [pose proof (told_source i b So) as X9; rewrite Ep in X9; exact X9|]. intros _ _. exists b, (su_write su (pages_json pages)), pages. rewrite Ep in L. cbv zeta. fold cache.
      split; [exact D|]. split; [exact L|]. split; [exact C|]. split; [exact F|]. split; [exact Fl|]. destruct (pages_kept pages C) as (_ & Pl & _). exact (proj1 (Codec _ Pl)).
  - injection H as <- <- _. split; [exact P|exact K].
Qed.

(** * All steps *)
Definition early (ph : phase) : Prop := match ph with AtStart | AtNet => True | _ => False end.
Definition tells (l : list (Z * Z)) (w : (Z * Z) * phase) : Prop :=
  (early (snd w) -> ~ In (fst w) l) /\ (~ early (snd w) -> fs_file s0 (issue_path cache (fst w)) = None -> In (fst w) l).
Record inv (sy : system) (l : list (Z * Z)) : Prop := mk_inv {
  iv_ready : forall i, In i issues -> rd (sy_fs sy) i;
  iv_kept : forall i, In i issues -> kept (sy_fs sy) i;
  iv_issues : map fst (sy_workers sy) = issues;
  iv_ok : forall i ph, In (i, ph) (sy_workers sy) -> phase_ok (sy_fs sy) i ph;
  iv_urls : sy_urls sy = map issue_url l;
  iv_once : NoDup l;
  iv_from : forall i, In i l -> In i issues /\ fs_file s0 (issue_path cache i) = None;
  iv_told : forall w, In w (sy_workers sy) -> tells l w
}.
Lemma inv_start : (forall i, In i issues -> agrees su e s0 i) -> ready su issues s0 -> inv (at_start issues s0) [].
Proof.
  intros A R. constructor; cbn [at_start sy_fs sy_workers sy_urls].
  - exact R.
  - intros i _ p _ _. reflexivity.
  - rewrite map_map. cbn [fst]. apply map_id.
  - intros i ph I. apply in_map_iff in I as (j & E & I). injection E as <- <-. cbn [phase_ok]. split; [apply A; exact I|reflexivity].
  - reflexivity.
  - constructor.
  - intros i [].
  - intros w I. apply in_map_iff in I as (j & <- & I). split; [intros _ []|]. intros N. destruct N. exact Logic.I.
Qed.
Lemma other_paths i j : i <> j -> (issue_path cache j <> issue_path cache i /\ issue_path cache j <> lines_path cache i) /\ (lines_path cache j <> issue_path cache i /\ lines_path cache j <> lines_path cache i).
Proof.
  intros N. split; split.
  - intros X. apply path_inj in X. congruence.
  - apply path_not_lines.
  - intros X. symmetry in X. exact (path_not_lines _ _ _ X).
  - intros X. apply lines_inj in X. congruence.
Qed.
Lemma step_urls i ph f ph' f' u : worker_step su i ph f = (ph', f', u) ->
  (u = [] /\ ph <> AtNet /\ (early ph' -> early ph) /\ (early ph -> ~ early ph' -> fs_file f (issue_path cache i) <> None \/ fs_dir f (issue_path cache i) = true)) \/ (ph = AtNet /\ u = [issue_url i] /\ ~ early ph').
Proof.
  unfold worker_step. fold cache. fold (issue_path cache i) (lines_path cache i) (issue_url i). cbv zeta. intros H.
  destruct ph; [left|right|left..]; try (assert (X := f_equal (fun x => fst (fst x)) H); assert (Y := f_equal snd H); cbn [fst snd] in X, Y; subst ph' u; clear H).
  - split; [reflexivity|]. split; [discriminate|]. split; [intros _; exact Logic.I|]. intros _. unfold is_there. destruct (fs_file f (issue_path cache i)); [intros _; left; discriminate|]. destruct (fs_dir f _); [right; reflexivity|]. intros N. destruct N. exact Logic.I.
  - split; [reflexivity|]. split; [reflexivity|]. destruct (su_net su (issue_url i)); intros [].
  - split; [reflexivity|]. split; [discriminate|]. split; [|intros []]. destruct (o_res _); intros [].
  - destruct (can_open _ _); cbn [fst snd early]; (split; [reflexivity|]; split; [discriminate|]; split; intros []).
  - destruct (nth_error _ _); cbn [fst snd early]; (split; [reflexivity|]; split; [discriminate|]; split; intros []).
  - split; [reflexivity|]. split; [discriminate|]. split; [|intros []]. destruct (fs_file _ _); intros [].
  - split; [reflexivity|]. split; [discriminate|]. split; [|intros []]. destruct (is_there _ _); intros [].
  - split; [reflexivity|]. split; [discriminate|]. split; intros [].
  - split; [reflexivity|]. split; [discriminate|]. split; [|intros []]. destruct (bind _ _) as [[x pages]|x]; intros [].
  - destruct (can_open _ _); cbn [fst snd early]; (split; [reflexivity|]; split; [discriminate|]; split; intros []).
  - destruct (nth_error _ _); cbn [fst snd early]; (split; [reflexivity|]; split; [discriminate|]; split; intros []).
  - split; [reflexivity|]. split; [discriminate|]. split; intros [].
Qed.
Lemma fst_in {A B} (x : A) (y : B) l : In (x, y) l -> In x (map fst l).
Proof. intros I. apply in_map_iff. exists (x, y). auto. Qed.
Lemma inv_step a b l : inv a l -> moves su issues a b -> exists l', inv b l'.
Proof.
  intros [Ir Ik Ii Io Iu In1 If It] M. destruct M as [f i ph wl wr urls ph' f' u H|f ws urls f' (Ef & Em & Ed)]; cbn [sy_fs sy_workers sy_urls] in *.
  - assert (Me : In (i, ph) (wl ++ (i, ph) :: wr)) by (apply in_or_app; right; left; reflexivity).
    assert (Ji : In i issues) by (rewrite <- Ii; exact (fst_in _ _ _ Me)).
    assert (Others : forall j phj, In (j, phj) wl \/ In (j, phj) wr -> j <> i /\ In (j, phj) (wl ++ (i, ph) :: wr)).
    { intros j phj I. split; [|apply in_or_app; destruct I; [left|right; right]; assumption]. intros ->. rewrite <- Ii, map_app in Nodup. cbn [map fst] in Nodup. apply NoDup_remove_2 in Nodup. apply Nodup.
      apply in_or_app. destruct I as [I|I]; [left|right]; exact (fst_in _ _ _ I). }
    pose proof (step_touches _ _ _ _ _ _ H) as [TO TM TD]. destruct (step_ok f i ph ph' f' u (Ir i Ji) (Io i ph Me) (Ik i Ji) H) as (R' & P' & K').
    assert (Ready : forall j, In j issues -> rd f' j).
    { intros j Ij. destruct (Ir j Ij) as ([Ne F] & D1 & D2). split; [split; [exact Ne|]|split].
      - apply Forall_forall. intros r I. pose proof (file_no_dir cache i j r I) as [N1 N2]. rewrite TO by assumption. rewrite Forall_forall in F. exact (F r I).
      - destruct (fs_dir f' (issue_path cache j)) eqn:E; [|reflexivity]. apply TD in E as [E|E]; [congruence|]. destruct (proj1 (file_no_dir cache j i _ E) eq_refl).
      - destruct (fs_dir f' (lines_path cache j)) eqn:E; [|reflexivity]. apply TD in E as [E|E]; [congruence|]. destruct (proj2 (file_no_dir cache j i _ E) eq_refl). }
    assert (Kept : forall j, In j issues -> kept f' j).
    { intros j Ij p I N. destruct (str_eqb (issue_path cache j) (issue_path cache i)) eqn:Ej; [apply str_eqb_eq, path_inj in Ej; subst j; exact (K' p I N)|].
      assert (Nj : i <> j) by (intros ->; rewrite str_eqb_refl in Ej; discriminate). destruct (other_paths i j Nj) as [[N1 N2] [N3 N4]]. rewrite TO; [exact (Ik j Ij p I N)| |]; destruct I as [->| ->]; assumption. }
    assert (Okay : forall j phj, In (j, phj) (wl ++ (i, ph') :: wr) -> phase_ok f' j phj).
    { intros j phj I. apply in_app_or in I as [I|[I|I]].
      2: { injection I as <- <-. exact P'. }
      1, 2: destruct (Others j phj ltac:(auto)) as [Nj Iw]; destruct (other_paths i j (fun X => Nj (eq_sym X))) as [[N1 N2] [N3 N4]];
        assert (Ij : In j issues) by (rewrite <- Ii; exact (fst_in _ _ _ Iw)); destruct (Ready j Ij) as (_ & D1 & D2);
        apply (phase_same f f'); [apply TO; assumption|apply TO; assumption|exact D1|exact D2|apply TM|exact (Io j phj Iw)]. }
    assert (Iss : map fst (wl ++ (i, ph') :: wr) = issues) by (rewrite <- Ii, !map_app; reflexivity).
    destruct (step_urls i ph f ph' f' u H) as [(-> & Nn & Ea & Es)|(-> & -> & Ne)].
    + exists l. constructor; cbn [sy_fs sy_workers sy_urls]; [exact Ready|exact Kept|exact Iss|exact Okay|rewrite app_nil_r; exact Iu|exact In1|exact If|].
      intros [j phj] I. apply in_app_or in I as [I|[I|I]]; [apply It; apply (Others j phj (or_introl I))| |apply It; apply (Others j phj (or_intror I))]. injection I as <- <-. destruct (It (i, ph) Me) as [T1 T2]. cbn [fst snd] in *.
      split; cbn [fst snd]; [intros E; exact (T1 (Ea E))|]. intros N N0. destruct ph; try exact (T2 (fun x : False => x) N0); [|destruct Nn; reflexivity].
      exfalso. destruct (Es Logic.I N) as [X|X]; [|destruct (Ir i Ji) as (_ & D & _); congruence]. destruct (Io i AtStart Me) as [_ E0]. congruence.
    + exists (l ++ [i]). assert (Ni : ~ In i l) by (apply (It (i, AtNet) Me); exact Logic.I).
      constructor; cbn [sy_fs sy_workers sy_urls]; [exact Ready|exact Kept|exact Iss|exact Okay|rewrite Iu, map_app; reflexivity| | |].
      * rewrite <- (app_nil_r (l ++ [i])), <- app_assoc. apply NoDup_Add with (a := i) (l := l); [|split; [exact In1|exact Ni]]. cbn [app]. rewrite <- (app_nil_r l) at 1. apply Add_app.
      * intros j I. apply in_app_or in I as [I|[<-|[]]]; [exact (If j I)|]. split; [exact Ji|]. apply (Io i AtNet Me).
      * intros [j phj] I. apply in_app_or in I as [I|[I|I]].
        2: { injection I as <- <-. split; cbn [fst snd]; [intros E; destruct (Ne E)|]. intros _ _. apply in_or_app. right. left. reflexivity. }
        all: destruct (Others j phj ltac:(auto)) as [Nj Iw]; destruct (It (j, phj) Iw) as [T1 T2]; cbn [fst snd] in *; split; cbn [fst snd].
        1, 3: intros E X; apply in_app_or in X as [X|[X|[]]]; [exact (T1 E X)|congruence].
        all: intros E X; apply in_or_app; left; exact (T2 E X).
  - exists l. assert (Files : forall j, In j issues -> fs_file f' (issue_path cache j) = fs_file f (issue_path cache j) /\ fs_file f' (lines_path cache j) = fs_file f (lines_path cache j)).
    { intros j Ij. split; apply Ef; left; exists j; auto. }
    assert (Dirs : forall j, In j issues -> fs_dir f' (issue_path cache j) = false /\ fs_dir f' (lines_path cache j) = false).
    { intros j Ij. destruct (Ir j Ij) as (_ & D1 & D2). split; [rewrite Ed; [exact D1|]|rewrite Ed; [exact D2|]]; exists j; auto. }
    constructor; cbn [sy_fs sy_workers sy_urls]; [| |exact Ii| |exact Iu|exact In1|exact If|exact It].
    + intros j Ij. destruct (Ir j Ij) as ([Ne F] & _). split; [split; [exact Ne|]|exact (Dirs j Ij)]. apply Forall_forall. intros r I. rewrite Ef by (right; right; exists j; auto). rewrite Forall_forall in F. exact (F r I).
    + intros j Ij p I N. rewrite <- (Ik j Ij p I N). destruct I as [->| ->]; apply Files; exact Ij.
    + intros j phj I. assert (Ij : In j issues) by (rewrite <- Ii; exact (fst_in _ _ _ I)). apply (phase_same f f'); [apply Files; exact Ij|apply Files; exact Ij|apply Dirs; exact Ij|apply Dirs; exact Ij|apply Em|exact (Io j phj I)].
Qed.
Lemma inv_reaches sy : (forall i, In i issues -> agrees su e s0 i) -> ready su issues s0 -> reaches su issues (at_start issues s0) sy -> exists l, inv sy l.
Proof. intros A R. induction 1 as [|b c _ (l & IH) M]; [exists []; apply inv_start; assumption|exact (inv_step b c l IH M)]. Qed.
End work.
