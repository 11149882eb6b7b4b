(* Days on which acts enter into force, read forwards. *)
From Coq Require Import Lia.
From Verif Require Import PyBase PyBaseFacts UnicodeAlnum NumModel IdModel LineModel DateModel DateSpec DateProofs RefModel RefSpec TreeModel StructModel StructSpec SemModel GramModel GramSpec GramProofs4 PegModel PegSpec PegSpec2 PegSpec3 PegSpec4 PegProofs PegProofs2 PegProofs7 PegProofs10 PegProofs13 PegProofs14 PegProofs22 PegProofs23 PegProofs24 PegProofs25 PegProofs26 PegProofs27 PegProofs28 PegProofs29 PegProofs30 PegProofs31 PegProofs32 PegProofs33 PegProofs34 PegProofs35 PegProofs36 PegProofs37.
Local Open Scope Z_scope.

Lemma numeral_digits s n : numeral s n -> digits s.
Proof. intros (A & B & _). now split. Qed.
Lemma number_space n s : digits n -> match s with c :: _ => c_09 c = false | [] => True end -> g_number (u8 " " ++ n ++ s) = Some (n, s).
Proof. intros D S. unfold g_number. change (u8 " " ++ n ++ s) with (32%N :: n ++ s). rewrite rule_space by reflexivity. now apply number_yes. Qed.
Lemma dot_yes s : p_tok (u8 ".") (u8 "." ++ s) = Some (u8 ".", s).
Proof. apply (tok_yes (u8 ".")); [reflexivity|intros H; discriminate H]. Qed.
Lemma month_reads m s : 1 <= m <= 12 -> g_month (u8 " " ++ nth (Z.to_nat (m - 1)) month_names [] ++ u8 " " ++ s) = Some (nth (Z.to_nat (m - 1)) month_names [], u8 " " ++ s).
Proof.
  intros M. assert (K : (Z.to_nat (m - 1) < 12)%nat) by lia. revert K. generalize (Z.to_nat (m - 1)). intros k K.
  do 12 (destruct k as [|k]; [reflexivity|]). lia.
Qed.
Lemma date_reads w d s : date_named w d -> exists g, g_date_rule (u8 " " ++ w ++ s) = Some (g, s) /\ date_written g (d_year d) (d_month d) (d_day d).
Proof.
  intros (y & n & e & Y & N & M & E & ->). exists (mk_gdate y (nth (Z.to_nat (d_month d - 1)) month_names []) n). split; [|repeat split; try apply Y; try apply N; lia].
  unfold g_date_rule. change (u8 " " ++ (y ++ u8 ". " ++ nth (Z.to_nat (d_month d - 1)) month_names [] ++ u8 " " ++ n ++ e) ++ s) with (32%N :: (y ++ u8 ". " ++ nth (Z.to_nat (d_month d - 1)) month_names [] ++ u8 " " ++ n ++ e) ++ s).
  rewrite rule_space by reflexivity. rewrite <- !app_assoc. unfold p_rule. rewrite ws_digits by now apply (numeral_digits _ _ Y).
  rewrite (bind_yes _ _ _ y (u8 "." ++ u8 " " ++ nth (Z.to_nat (d_month d - 1)) month_names [] ++ u8 " " ++ n ++ e ++ s)) by (apply number_yes; [exact (numeral_digits _ _ Y)|reflexivity]).
  rewrite (bind_yes _ _ _ _ _ (dot_yes _)), (bind_yes _ _ _ _ _ (month_reads _ _ M)).
  rewrite (bind_yes _ _ _ n (e ++ s)) by (apply number_space; [exact (numeral_digits _ _ N)|]; destruct E as [<-|[<-|[<-|[<-|[]]]]]; reflexivity).
  assert (K : p_toks [u8 "-án"; u8 "-jén"; u8 "-én"; u8 ". napján"] (e ++ s) = Some (e, s)) by (destruct E as [<-|[<-|[<-|[<-|[]]]]]; reflexivity). now rewrite (bind_yes _ _ _ _ _ K).
Qed.

(** * After the publication *)

Lemma proclaimed_reads p s : proclaimed p -> g_after_proclamation (u8 " " ++ p ++ u8 " " ++ s) = Some (tt, u8 " " ++ s).
Proof. intros (a & b & A & B & ->). destruct A as [<-|[<-|[<-|[]]]]; (destruct B as [<-|[<-|[]]]; reflexivity). Qed.
Lemma ordinal_reads v m s : In (v, m) grammar_ordinals -> g_hungarian_ordinal (u8 " " ++ v ++ u8 " " ++ s) = Some (v, u8 " " ++ s) /\ v <> [] /\ text_to_int_hun v = Ok m.
Proof.
  intros I. split; [|split].
  - repeat (destruct I as [I|I]; [injection I as <- <-; reflexivity|]). destruct I.
  - repeat (destruct I as [I|I]; [injection I as <- <-; discriminate|]). destruct I.
  - pose proof grammar_ordinals_read as F. rewrite Forall_forall in F. exact (F _ I).
Qed.
(* the number or the word *)
Definition count_of (x : option pystr * option pystr) (n : Z) : Prop :=
  (exists s, x = (Some s, None) /\ py_int s = Ok n) \/ (exists c s, x = (None, Some (c :: s)) /\ text_to_int_hun (c :: s) = Ok n).
Lemma ordinal_digits s r : digits s -> g_hungarian_ordinal (u8 " " ++ s ++ r) = None.
Proof.
  intros D. unfold g_hungarian_ordinal. change (u8 " " ++ s ++ r) with (32%N :: s ++ r). rewrite rule_space by reflexivity. unfold p_rule. rewrite ws_digits by exact D.
  destruct (digits_head _ D) as (c & t & -> & C). assert (L : lc ((c :: t) ++ r) = c) by (cbn [app]; apply lc_solid; now apply digit_space).
  apply toks_no. rewrite L. unfold c_09 in C. apply andb_prop in C as [C1 C2]. apply N.leb_le in C1, C2. repeat (apply Forall_cons; [cbn; lia|]). apply Forall_nil.
Qed.
Lemma count_reads w n s {A} (f : pystr -> A) (h : pystr -> A) : count_named w n ->
  exists x, (p_map f g_hungarian_ordinal <|> p_map h g_number_with_dot) (w ++ u8 " " ++ s) = Some (x, u8 " " ++ s) /\
    ((exists t, x = h t /\ py_int t = Ok n) \/ (exists c t, x = f (c :: t) /\ text_to_int_hun (c :: t) = Ok n)).
Proof.
  intros C. destruct C as [t n T|t n I].
  - exists (h t). pose proof (numeral_digits _ _ T) as D. split.
    + rewrite <- app_assoc, or_no by (apply map_no; rewrite <- app_assoc; now apply ordinal_digits). apply map_yes. unfold g_number_with_dot. change (u8 " " ++ (t ++ u8 ".") ++ u8 " " ++ s) with (32%N :: (t ++ u8 ".") ++ u8 " " ++ s).
      rewrite rule_space by reflexivity. rewrite <- app_assoc. unfold p_rule. rewrite ws_digits by exact D. rewrite (bind_yes _ _ _ t (u8 "." ++ u8 " " ++ s)) by (apply number_yes; [exact D|reflexivity]). now rewrite (bind_yes _ _ _ _ _ (dot_yes _)).
    + left. exists t. split; [reflexivity|]. destruct T as (T1 & T2 & <-). now apply py_int_digits.
  - destruct (ordinal_reads t n s I) as (R & N & E). destruct t as [|c t]; [now destruct N|]. exists (f (c :: t)). split.
    + rewrite <- app_assoc. apply or_yes, map_yes. exact R.
    + right. eauto.
Qed.

(** * Moments *)

Definition moment : Type := option g_date * option g_after * option g_day.
Definition g_moment : parser moment :=
      p_map (fun d => (Some d, None, None)) g_date_rule
  <|> p_map (fun d => (None, Some d, None)) g_after_publication
  <|> p_map (fun d => (None, None, Some d)) g_day_in_month.
Definition moment_converts (x : moment) : res enforcement_date_type :=
  match x with
  | (Some d, _, _) => y <- convert_exact_date d ;; Ok (EDate y)
  | (None, Some f, _) => convert_after_publication_date f
  | (None, None, Some d) => convert_day_in_month d
  | (None, None, None) => Err ValueError
  end.
Definition moment_possible (d : enforcement_date_type) : Prop := match d with EDate d => supported d | _ => True end.
Lemma proclaimed_no_date p s : proclaimed p -> g_date_rule (u8 " " ++ p ++ s) = None.
Proof. intros (a & b & A & B & ->). unfold g_date_rule, p_rule. apply bind_no, number_no. destruct A as [<-|[<-|[<-|[]]]]; (destruct B as [<-|[<-|[]]]; reflexivity). Qed.
Lemma proclaimed_space p s : proclaimed p -> ws (u8 " " ++ p ++ s) = p ++ s /\ ws (p ++ s) = p ++ s.
Proof. intros (a & b & A & B & ->). destruct A as [<-|[<-|[<-|[]]]]; (destruct B as [<-|[<-|[]]]; split; reflexivity). Qed.
Lemma proclaimed_here p s : proclaimed p -> g_after_proclamation (ws (u8 " " ++ p ++ u8 " " ++ s)) = Some (tt, u8 " " ++ s).
Proof. intros (a & b & A & B & ->). destruct A as [<-|[<-|[<-|[]]]]; (destruct B as [<-|[<-|[]]]; reflexivity). Qed.
Lemma moment_reads date w s : moment_written date w -> exists x, g_moment (u8 " " ++ w ++ u8 " lép hatályba" ++ s) = Some (x, u8 " lép hatályba" ++ s) /\
  (moment_possible date -> moment_converts x = Ok date) /\ (~ moment_possible date -> exists e, moment_converts x = Err e).
Proof.
  intros M. destruct M as [d w D|p P|p n w P C|p n w P C|p m v n w P V C].
  - destruct (date_reads w d (u8 " lép hatályba" ++ s) D) as (g & G & H). exists (Some g, None, None). split; [apply or_yes, or_yes; exact (map_yes (fun d => (Some d, None, None)) _ _ _ _ G)|].
    destruct (exact_date _ _ _ _ H) as [H1 H2]. destruct d as [y m d]. cbn in *. split.
    + intros Q. now rewrite (H1 Q).
    + intros Q. destruct (H2 Q) as (e & ->). now exists e.
  - exists (None, Some (mk_gafter None None), None). split; [|split; [reflexivity|intros []; exact Logic.I]]. apply or_yes. rewrite or_no by (apply map_no; rewrite <- app_assoc; now apply proclaimed_no_date).
    apply (map_yes (fun d => (None, Some d, None))). unfold g_after_publication, p_rule. rewrite <- app_assoc. change (u8 " napon" ++ u8 " lép hatályba" ++ s) with (u8 " " ++ u8 "napon" ++ u8 " lép hatályba" ++ s). rewrite (bind_yes _ _ _ _ _ (proclaimed_here _ _ P)). reflexivity.
  - assert (R : exists f, g_after_publication (u8 " " ++ (p ++ w ++ u8 " napon") ++ u8 " lép hatályba" ++ s) = Some (f, u8 " lép hatályba" ++ s) /\ convert_after_publication_date f = Ok (EDaysAfterPublication n)).
    { destruct (count_reads w n (u8 "napon" ++ u8 " lép hatályba" ++ s) (fun t => mk_gafter None (Some t)) (fun n => mk_gafter (Some n) None) C) as (f & F & H). exists f. split.
      - unfold g_after_publication, p_rule. rewrite <- !app_assoc. assert (W : exists w', w = u8 " " ++ w') by (destruct C; eauto). destruct W as (w' & W). pose proof (proclaimed_here p (w' ++ u8 " napon" ++ u8 " lép hatályba" ++ s) P) as Q.
        rewrite W in *. rewrite <- !app_assoc in *. rewrite (bind_yes _ _ _ _ _ Q). rewrite (bind_yes _ _ _ _ _ (opt_yes _ _ _ _ F)). reflexivity.
      - destruct H as [(t & -> & H)|(c & t & -> & H)]; unfold convert_after_publication_date; cbn [gf_as_number gf_as_text]; now rewrite H. }
    destruct R as (f & F & H). exists (None, Some f, None). split; [|split; [intros _; exact H|intros []; exact Logic.I]]. apply or_yes. rewrite or_no by (apply map_no; rewrite <- app_assoc; now apply proclaimed_no_date). exact (map_yes (fun d => (None, Some d, None)) _ _ _ _ F).
  - destruct (count_reads w n (u8 "napján" ++ u8 " lép hatályba" ++ s) (fun t => mk_gday None None (Some t)) (fun n => mk_gday None (Some n) None) C) as (f & F & H). exists (None, None, Some f). split; [|split; [intros _|intros []; exact Logic.I]].
    + assert (Q : forall z, g_after_proclamation (ws (u8 " " ++ (p ++ u8 " hónap" ++ z) ++ u8 " lép hatályba" ++ s)) = Some (tt, u8 " hónap" ++ z ++ u8 " lép hatályba" ++ s)) by (intros z; rewrite <- !app_assoc; exact (proclaimed_here p (u8 "hónap" ++ z ++ u8 " lép hatályba" ++ s) P)).
      unfold g_moment. rewrite or_no; [|rewrite or_no; apply map_no; [|rewrite <- app_assoc; now apply proclaimed_no_date]].
      * apply (map_yes (fun d => (None, None, Some d))). unfold g_day_in_month, p_rule. rewrite (bind_yes _ _ _ _ _ (Q _)). rewrite (bind_yes _ _ _ None (u8 " hónap" ++ (w ++ u8 " napján") ++ u8 " lép hatályba" ++ s)) by reflexivity.
        assert (W : exists w', w = u8 " " ++ w') by (destruct C; eauto). destruct W as (w' & W). rewrite (bind_yes _ _ _ (u8 "hónap") ((w ++ u8 " napján") ++ u8 " lép hatályba" ++ s)) by (rewrite W; reflexivity). rewrite <- app_assoc. rewrite (bind_yes _ _ _ _ _ F). reflexivity.
      * unfold g_after_publication, p_rule. rewrite (bind_yes _ _ _ _ _ (Q _)). rewrite (bind_yes _ _ _ None (u8 " hónap" ++ (w ++ u8 " napján") ++ u8 " lép hatályba" ++ s)) by reflexivity. reflexivity.
    + destruct H as [(t & -> & H)|(c & t & -> & H)]; unfold moment_converts, convert_day_in_month; cbn [gy_month gy_day_as_number gy_day_as_text bind]; now rewrite H.
  - destruct (ordinal_reads v m (u8 "hónap" ++ (w ++ u8 " napján") ++ u8 " lép hatályba" ++ s) V) as (O & NV & EV).
    destruct (count_reads w n (u8 "napján" ++ u8 " lép hatályba" ++ s) (fun t => mk_gday (Some v) None (Some t)) (fun n => mk_gday (Some v) (Some n) None) C) as (f & F & H). exists (None, None, Some f). split; [|split; [intros _|intros []; exact Logic.I]].
    + assert (Q : g_after_proclamation (ws (u8 " " ++ (p ++ u8 " " ++ v ++ u8 " hónap" ++ w ++ u8 " napján") ++ u8 " lép hatályba" ++ s)) = Some (tt, u8 " " ++ v ++ u8 " " ++ u8 "hónap" ++ (w ++ u8 " napján") ++ u8 " lép hatályba" ++ s)).
      { rewrite <- app_assoc. rewrite <- (app_assoc (u8 " ")). rewrite <- (app_assoc v). refine (proclaimed_here p _ P). }
      unfold g_moment. rewrite or_no; [|rewrite or_no; apply map_no; [|rewrite <- app_assoc; now apply proclaimed_no_date]].
      * apply (map_yes (fun d => (None, None, Some d))). unfold g_day_in_month, p_rule. rewrite (bind_yes _ _ _ _ _ Q). rewrite (bind_yes _ _ _ _ _ (opt_yes _ _ _ _ O)).
        assert (W : exists w', w = u8 " " ++ w') by (destruct C; eauto). destruct W as (w' & W). rewrite (bind_yes _ _ _ (u8 "hónap") ((w ++ u8 " napján") ++ u8 " lép hatályba" ++ s)) by (rewrite W; reflexivity). rewrite <- app_assoc. rewrite (bind_yes _ _ _ _ _ F). reflexivity.
      * unfold g_after_publication, p_rule. rewrite (bind_yes _ _ _ _ _ Q). rewrite (bind_yes _ _ _ (Some (mk_gafter None (Some v))) (u8 " " ++ u8 "hónap" ++ (w ++ u8 " napján") ++ u8 " lép hatályba" ++ s)); [reflexivity|]. apply opt_yes, or_yes. exact (map_yes (fun t => mk_gafter None (Some t)) _ _ _ _ O).
    + destruct v as [|cv v]; [now destruct NV|]. destruct H as [(t & -> & H)|(c & t & -> & H)]; unfold moment_converts, convert_day_in_month; cbn [gy_month gy_day_as_number gy_day_as_text]; rewrite EV; cbn [bind]; now rewrite H.
Qed.

(** * No reference in it *)

Lemma month_quiet m s : 1 <= m <= 12 -> let r := u8 " " ++ nth (Z.to_nat (m - 1)) month_names [] ++ u8 " " ++ s in
  ~ In (lc r) (u8 ",;évi") /\ c_09 (lc r) = false /\ ~ is_dash (lc r) /\ lc r <> 167%N /\ forall t, unit_parser t r = None.
Proof.
  intros M. assert (K : (Z.to_nat (m - 1) < 12)%nat) by lia. revert K. generalize (Z.to_nat (m - 1)). intros k K. cbv zeta.
  do 12 (destruct k as [|k]; [split; [cbn; intuition discriminate|]; split; [reflexivity|]; split; [unfold is_dash; cbn; intuition discriminate|]; split; [discriminate|intros []; reflexivity]|]). lia.
Qed.
Section Total.
Variable total : Z.
Lemma date_partless w d s : date_named w d -> partless total (u8 " " ++ w ++ s).
Proof.
  intros (y & n & e & Y & N & M & E & ->). pose proof (numeral_digits _ _ Y) as D. intros t. rewrite part_space. rewrite <- !app_assoc.
  set (r := u8 " " ++ nth (Z.to_nat (d_month d - 1)) month_names [] ++ u8 " " ++ n ++ e ++ s). change (y ++ u8 ". " ++ nth (Z.to_nat (d_month d - 1)) month_names [] ++ u8 " " ++ n ++ e ++ s) with (y ++ u8 "." ++ r).
  destruct (month_quiet (d_month d) (n ++ e ++ s) M) as (R1 & R2 & R3 & R4 & R5). fold r in R1, R2, R3, R4, R5.
  destruct (digits_head _ D) as (c & u & Yc & C). assert (L : lc (y ++ u8 "." ++ r) = c) by (rewrite Yc; cbn [app]; apply lc_solid; now apply digit_space).
  assert (B : (48 <= c <= 57)%N) by (unfold c_09 in C; apply andb_prop in C as [C1 C2]; apply N.leb_le in C1, C2; lia).
  assert (O : In t [PArticle; PNumericPoint; PNumericSubpoint] -> part_id t y -> one_text t y = y ++ u8 "." -> part_parser total t (y ++ u8 "." ++ r) = None).
  { intros I P F. assert (W : item_written t (RId y) (y ++ u8 ".")) by (rewrite <- F; now apply iw_one).
    destruct (item_reads total t (RId y) (y ++ u8 ".") r W) as (x & X & _); [split; [exact R3|]; intros _ z q; rewrite sign_no by exact R4; discriminate|].
    assert (Sd : ws (y ++ u8 "." ++ r) = y ++ u8 "." ++ r) by (now apply ws_digits). apply (part_other total t _ x r); [rewrite Sd, app_assoc; exact X|now apply separator_no|apply item_no; [apply nothing_numeric|apply nothing_numeric]; (rewrite lc_ws || idtac); try exact R2; exact I|apply R5]. }
  destruct t.
  - apply O; [now left|now apply as_plain|reflexivity].
  - apply part_nothing, nothing_paragraph. rewrite lc_ws, L. lia.
  - apply part_nothing, nothing_letter; [|cbn; tauto]. rewrite lc_ws, L. unfold c_az. destruct (97 <=? c)%N eqn:Q; [apply N.leb_le in Q; lia|reflexivity].
  - apply O; [cbn; tauto|now apply pn_plain|reflexivity].
  - apply part_nothing, nothing_letter; [|cbn; tauto]. rewrite lc_ws, L. unfold c_az. destruct (97 <=? c)%N eqn:Q; [apply N.leb_le in Q; lia|reflexivity].
  - apply O; [cbn; tauto|exact D|reflexivity].
Qed.
Lemma proclaimed_partless p s : proclaimed p -> partless total (u8 " " ++ p ++ u8 " " ++ s).
Proof. intros (a & b & A & B & ->) t. destruct A as [<-|[<-|[<-|[]]]]; (destruct B as [<-|[<-|[]]]; (destruct t; reflexivity)). Qed.
Lemma moment_shape date w : moment_written date w -> (exists d, date_named w d) \/ exists p v, proclaimed p /\ w = p ++ u8 " " ++ v.
Proof.
  intros M. destruct M as [d w D|p P|p n w P C|p n w P C|p m v n w P V C]; [left; eauto|right..].
  - exists p. eexists. split; [exact P|reflexivity].
  - exists p. destruct C; eexists; (split; [exact P|]); rewrite <- !app_assoc; reflexivity.
  - exists p. eexists. split; [exact P|reflexivity].
  - exists p. eexists. split; [exact P|reflexivity].
Qed.
Lemma moment_silent date w s : moment_written date w -> silent total (u8 " " ++ w ++ s) /\ g_separator (u8 " " ++ w ++ s) = Some (tt, u8 " " ++ w ++ s) /\ partless total (u8 " " ++ w ++ s).
Proof.
  intros M. apply moment_shape in M as [(d & D)|(p & v & P & ->)].
  - pose proof (date_partless w d s D) as Q. destruct D as (y & n & e & Y & N & M & E & ->). pose proof (numeral_digits _ _ Y) as D. destruct (digits_head _ D) as (c & u & Yc & C).
    assert (L : lc (u8 " " ++ (y ++ u8 ". " ++ nth (Z.to_nat (d_month d - 1)) month_names [] ++ u8 " " ++ n ++ e) ++ s) = c) by (rewrite Yc; cbn [app]; rewrite lc_space by reflexivity; apply lc_solid; now apply digit_space).
    assert (B : (48 <= c <= 57)%N) by (unfold c_09 in C; apply andb_prop in C as [C1 C2]; apply N.leb_le in C1, C2; lia).
    split; [split; [exact Q|split; [|left; reflexivity]]|split; [|exact Q]].
    + rewrite L. unfold is_dash. cbn. intuition lia.
    + apply separator_no. rewrite L. cbn. intuition lia.
  - rewrite <- !app_assoc. pose proof (proclaimed_partless p (v ++ s) P) as Q. split; [split; [exact Q|split; [|left; reflexivity]]|split; [|exact Q]]; clear Q.
    + destruct P as (a & b & A & B & ->). destruct A as [<-|[<-|[<-|[]]]]; (destruct B as [<-|[<-|[]]]; unfold is_dash; cbn; intuition discriminate).
    + destruct P as (a & b & A & B & ->). destruct A as [<-|[<-|[<-|[]]]]; (destruct B as [<-|[<-|[]]]; reflexivity).
Qed.
End Total.
