(* Proofs for C46. *)
From Coq Require Import Lia.
From Coq Require Import ZifyBool ZifyNat ZifyN.
From Verif Require Import PyBase PyBaseFacts IdModel LineModel DateModel GazModel GazSpec.
Local Open Scope Z_scope.

Lemma blank_ok l : is_empty_line l = true <-> blank l.
Proof. unfold is_empty_line, blank. destruct (l_parts l); split; congruence. Qed.
Lemma mem_chr_In c s : mem_chr c s = true <-> In c s.
Proof. unfold mem_chr. rewrite existsb_exists. split; [intros (x & H & E); apply N.eqb_eq in E; subst; exact H|intros H; exists c; split; [exact H|apply N.eqb_refl]]. Qed.
Lemma digit_In c : ascii_digit c = true <-> In c (u8 "0123456789").
Proof.
  split.
  - unfold ascii_digit. intros H. assert (E : (c = 48 \/ c = 49 \/ c = 50 \/ c = 51 \/ c = 52 \/ c = 53 \/ c = 54 \/ c = 55 \/ c = 56 \/ c = 57)%N) by lia.
    cbn. intuition.
  - intros H. assert (F : Forall (fun c => ascii_digit c = true) (u8 "0123456789")) by (repeat constructor). rewrite Forall_forall in F. exact (F c H).
Qed.
Lemma number_word_ok s : forall seen, match_number_word seen s = true <->
  exists number dot rest, s = number ++ [dot] ++ u8 " törvény" ++ rest /\ Forall (fun x => In x (u8 "IVXLC")) number /\ dot <> 10%N /\ (seen = false -> number <> []).
Proof.
  induction s as [|c t IH]; intros seen; cbn [match_number_word].
  - split; [discriminate|]. intros (n & d & r & E & _). destruct n; discriminate.
  - rewrite Bool.orb_true_iff, !Bool.andb_true_iff. split.
    + intros [[[S A] W]|[M R]].
      * exists [], c. apply startswith_spec in W as (r & W). exists r. split; [cbn [app]; rewrite W; reflexivity|]. split; [constructor|]. split; [unfold any_chr in A; lia|congruence].
      * apply IH in R as (n & d & r & -> & F & D & _). exists (c :: n), d, r. split; [reflexivity|]. apply mem_chr_In in M. split; [constructor; assumption|]. split; [exact D|discriminate].
    + intros (n & d & r & E & F & D & N). destruct n as [|x n].
      * left. injection E as -> ->. split; [|apply startswith_spec; exists r; reflexivity]. split; [destruct seen; [reflexivity|exfalso; apply N; reflexivity]|unfold any_chr; lia].
      * right. injection E as -> E. inversion F; subst. split; [apply mem_chr_In; assumption|]. apply IH. exists n, d, r. repeat split; auto. discriminate.
Qed.
Lemma header_ok s : match_header s = true <-> law_header s.
Proof.
  unfold match_header, law_header. split.
  - destruct s as [|a [|b [|c [|d [|e t]]]]]; try discriminate. rewrite !Bool.andb_true_iff. intros ((((((A & B) & C) & D) & E) & P) & W).
    apply startswith_spec in P as (t' & ->). change (skipn 5 (u8 " évi " ++ t')) with t' in W. apply number_word_ok in W as (n & dot & rest & -> & F & X & N).
    exists a, b, c, d, e, n, dot, rest. apply mem_chr_In in A, B. apply digit_In in C, D. unfold any_chr in E. repeat split; auto. lia.
  - intros (a & b & c & d & e & n & dot & rest & -> & A & B & C & D & E & X & N & F).
    set (X' := n ++ [dot] ++ u8 " törvény" ++ rest).
    change ((mem_chr a (u8 "12") && mem_chr b (u8 "09") && ascii_digit c && ascii_digit d && any_chr e && true && match_number_word false X')%bool = true).
    apply mem_chr_In in A, B. apply digit_In in C, D. rewrite A, B, C, D. cbn [andb]. unfold any_chr.
    assert (W : match_number_word false (n ++ [dot] ++ u8 " törvény" ++ rest) = true) by (apply number_word_ok; exists n, dot, rest; repeat split; auto).
    unfold X'. rewrite W. destruct (e =? 10)%N eqn:Q; [lia|reflexivity].
Qed.
Lemma footer_ok s : match_footer s = true <-> signature s.
Proof.
  unfold match_footer, signature. rewrite Bool.orb_true_iff, !startswith_spec. split.
  - intros [(t & ->)|(t & ->)]; exists t; auto.
  - intros (t & [-> | ->]); [left|right]; exists t; reflexivity.
Qed.

Lemma join_snoc sep l x : l <> [] -> join_str sep (l ++ [x]) = join_str sep l ++ sep ++ x.
Proof.
  induction l as [|a [|b l] IH]; intros N; [contradiction|reflexivity|].
  change ((a :: b :: l) ++ [x]) with (a :: (b :: l) ++ [x]). change (join_str sep (a :: (b :: l) ++ [x])) with (a ++ sep ++ join_str sep ((b :: l) ++ [x])).
  rewrite IH by discriminate. change (join_str sep (a :: b :: l)) with (a ++ sep ++ join_str sep (b :: l)). rewrite <- !app_assoc. reflexivity.
Qed.
Lemma last_three_ok body x y z : last_three body = Some (x, y, z) <-> exists a, body = a ++ [x; y; z].
Proof.
  unfold last_three. split.
  - destruct (rev body) as [|c [|b [|a r]]] eqn:E; try discriminate. intros H. injection H as -> -> ->. exists (rev r).
    rewrite <- (rev_involutive body), E. cbn [rev]. rewrite <- !app_assoc. reflexivity.
  - intros (a & ->). rewrite rev_app_distr. reflexivity.
Qed.
Lemma last_three_long (body : list line) : (4 <= List.length body)%nat -> exists a x y z, body = a ++ [x; y; z] /\ a <> [].
Proof.
  intros L. pose proof (rev_involutive body) as V. rewrite <- (rev_length body) in L. destruct (rev body) as [|c [|b [|a [|d r]]]]; cbn [List.length] in L; try lia.
  exists (rev (d :: r)), a, b, c. split; [rewrite <- V; cbn [rev]; rewrite <- !app_assoc; reflexivity|]. cbn [rev]. intros E. apply app_eq_nil in E as [_ E]. discriminate.
Qed.
Lemma firstn_three {A} (a : list A) x y z : firstn (List.length (a ++ [x; y; z]) - 3) (a ++ [x; y; z]) = a.
Proof. rewrite app_length. cbn [List.length]. replace (List.length a + 3 - 3)%nat with (List.length a + 0)%nat by lia. rewrite firstn_app_2. cbn. apply app_nil_r. Qed.

(* what the two checks of a body see *)
Lemma footnote_ok body : (forall a x y z, body = a ++ [x; y; z] -> a <> [] -> blank x -> blank z -> l_content y <> []) ->
  match footnote body with
  | Ok (Some b) => exists a x y z t, body = a ++ [x; y; z] /\ a <> [] /\ blank x /\ l_content y = u8 "*" ++ t /\ blank z /\ b = a ++ [EMPTY_LINE]
  | Ok None => forall a x y z, body = a ++ [x; y; z] -> a <> [] -> blank x -> blank z -> exists c t, l_content y = c :: t /\ c <> 42%N
  | Err _ => False
  end.
Proof.
  intros H. unfold footnote. destruct (List.length body <? 4)%nat eqn:L.
  - intros a x y z -> A. exfalso. rewrite app_length in L. cbn [List.length] in L. destruct a; [contradiction|cbn [List.length] in L; lia].
  - destruct (last_three_long body ltac:(lia)) as (a & x & y & z & -> & A).
    assert (T : last_three (a ++ [x; y; z]) = Some (x, y, z)) by (apply last_three_ok; exists a; reflexivity). rewrite T.
    assert (Q : forall a' x' y' z', a ++ [x; y; z] = a' ++ [x'; y'; z'] -> x' = x /\ y' = y /\ z' = z).
    { intros a' x' y' z' E. rewrite E in T. assert (T' : last_three (a' ++ [x'; y'; z']) = Some (x', y', z')) by (apply last_three_ok; exists a'; reflexivity). split; [congruence|split; congruence]. }
    destruct (is_empty_line x && is_empty_line z)%bool eqn:B.
    + apply andb_prop in B as [B1 B2]. apply blank_ok in B1, B2. destruct (l_content y) as [|c t] eqn:C; [exact (H a x y z eq_refl A B1 B2 C)|].
      destruct (c =? 42)%N eqn:S.
      * exists a, x, y, z, t. rewrite firstn_three. apply N.eqb_eq in S. subst c. rewrite C. repeat split; auto.
      * intros a' x' y' z' E _ _ _. destruct (Q _ _ _ _ E) as (_ & -> & _). exists c, t. split; [exact C|lia].
    + intros a' x' y' z' E _ X Z. destruct (Q _ _ _ _ E) as (-> & _ & ->). apply blank_ok in X, Z. rewrite X, Z in B. discriminate.
Qed.
Lemma footnote_sound body b : footnote body = Ok (Some b) ->
  exists a x y z t, body = a ++ [x; y; z] /\ a <> [] /\ blank x /\ l_content y = u8 "*" ++ t /\ blank z /\ b = a ++ [EMPTY_LINE].
Proof.
  unfold footnote. destruct (List.length body <? 4)%nat eqn:L; [discriminate|].
  destruct (last_three_long body ltac:(lia)) as (a & x & y & z & -> & A).
  assert (T : last_three (a ++ [x; y; z]) = Some (x, y, z)) by (apply last_three_ok; exists a; reflexivity). rewrite T.
  destruct (is_empty_line x && is_empty_line z)%bool eqn:B; [|discriminate]. apply andb_prop in B as [B1 B2]. apply blank_ok in B1, B2.
  destruct (l_content y) as [|c t] eqn:C; [discriminate|]. destruct (c =? 42)%N eqn:S; [|discriminate]. intros H. injection H as <-. rewrite firstn_three.
  exists a, x, y, z, t. apply N.eqb_eq in S. subst c. repeat split; auto.
Qed.
Lemma after_ok d m l : let body := m_body m ++ [l] in
  (exists a x y, body = a ++ [x; y; l] /\ a <> [] /\ blank x /\ signature (l_content l) /\
     body_after d m l = (machine_init, Some (mk_law (m_identifier m) d (m_subject m) a))) \/
  ((forall a x y z, body = a ++ [x; y; z] -> a <> [] -> blank x -> ~ signature (l_content z)) /\
   body_after d m l = (mk_machine (m_state m) (m_identifier m) (m_subject m) body, None)).
Proof.
  cbv zeta. unfold body_after. set (body := m_body m ++ [l]). cbv zeta. destruct (List.length body <? 4)%nat eqn:L.
  - right. split; [|reflexivity]. intros a x y z E A. exfalso. rewrite E, app_length in L. cbn [List.length] in L. destruct a; [contradiction|cbn [List.length] in L; lia].
  - destruct (last_three_long body ltac:(lia)) as (a & x & y & z & E & A).
    assert (T : last_three body = Some (x, y, z)) by (apply last_three_ok; exists a; exact E). rewrite T.
    assert (z = l). { unfold body in E. change [x; y; z] with ([x; y] ++ [z]) in E. rewrite app_assoc in E. apply app_inj_tail in E as [_ E]. auto. }
    subst z. destruct (is_empty_line x && match_footer (l_content l))%bool eqn:B.
    + left. apply andb_prop in B as [B1 B2]. apply blank_ok in B1. apply footer_ok in B2. exists a, x, y. rewrite E, firstn_three. auto.
    + right. split; [|reflexivity]. intros a' x' y' z' E' _ X Z.
      assert (T' : last_three body = Some (x', y', z')) by (apply last_three_ok; exists a'; exact E').
      assert (x' = x) by congruence. assert (z' = l) by congruence. subst. apply blank_ok in X. apply footer_ok in Z. rewrite X, Z in B. discriminate.
Qed.

Lemma cut_snoc raw body l : footnote_cut raw body -> footnote_cut (raw ++ [l]) (body ++ [l]).
Proof.
  intros []; [constructor|]. replace ((before ++ EMPTY_LINE :: after) ++ [l]) with (before ++ EMPTY_LINE :: (after ++ [l])) by (rewrite <- app_assoc; reflexivity).
  replace ((before ++ [x; y; z] ++ after) ++ [l]) with (before ++ [x; y; z] ++ (after ++ [l])) by (rewrite <- !app_assoc; reflexivity).
  eapply fc_cut; eauto.
Qed.

(* what the machine has seen *)
Definition subject_so_far (ls : list line) (subject : pystr) : Prop :=
  Forall (fun m => ~ starred (l_content m)) ls /\ match ls with [] => True | f :: _ => l_content f <> [] end /\
  join_str (u8 " ") (map l_content ls) = subject.
Definition seen (m : machine) (pre : list line) : Prop :=
  match m_state m with
  | WAITING_FOR_HEADER_NEWLINE => m_subject m = [] /\ m_body m = []
  | WAITING_FOR_HEADER => m_subject m = [] /\ m_body m = [] /\ exists g e, pre = g ++ [e] /\ blank e
  | HEADER => m_body m = [] /\ exists g e h ls, pre = g ++ [e; h] ++ ls /\ blank e /\ law_header (l_content h) /\ m_identifier m = l_content h /\
      subject_so_far ls (m_subject m)
  | BODY_BEFORE_ASTERISK_FOOTER => exists g e h ls, pre = g ++ [e; h] ++ ls ++ m_body m /\ blank e /\ law_header (l_content h) /\
      m_identifier m = l_content h /\ subject_written ls (m_subject m)
  | BODY_AFTER_ASTERISK_FOOTER => exists g e h ls raw, pre = g ++ [e; h] ++ ls ++ raw /\ blank e /\ law_header (l_content h) /\
      m_identifier m = l_content h /\ subject_written ls (m_subject m) /\ footnote_cut raw (m_body m)
  end.

Lemma join_empty f ls : l_content f <> [] -> join_str (u8 " ") (map l_content (f :: ls)) <> [].
Proof.
  intros N. destruct ls as [|g ls]; [exact N|]. change (map l_content (f :: g :: ls)) with (l_content f :: map l_content (g :: ls)).
  intros E. change (l_content f ++ u8 " " ++ join_str (u8 " ") (map l_content (g :: ls)) = []) in E. apply app_eq_nil in E as [E _]. exact (N E).
Qed.
(* adding a line to the subject *)
Lemma subject_step ls s l : subject_so_far ls s ->
  let s' := match s with [] => l_content l | _ => s ++ u8 " " ++ l_content l end in
  s' = join_str (u8 " ") (map l_content (ls ++ [l])) /\
  (s' <> [] -> match ls ++ [l] with [] => False | f :: _ => l_content f <> [] end) /\
  (starred (l_content l) <-> exists t, s' = t ++ u8 "*").
Proof.
  intros (F & N & J). cbv zeta. destruct ls as [|f ls].
  - cbn in J. subst s. cbn [app map join_str]. split; [reflexivity|]. split; [auto|]. reflexivity.
  - assert (S : s <> []) by (rewrite <- J; apply join_empty; exact N). destruct s as [|c s]; [contradiction|].
    set (sep := u8 " ") in *.
    assert (E : join_str sep (map l_content ((f :: ls) ++ [l])) = (c :: s) ++ sep ++ l_content l).
    { rewrite map_app. change (map l_content [l]) with [l_content l]. rewrite join_snoc by discriminate. rewrite J. reflexivity. }
    split; [rewrite E; reflexivity|]. split; [intros _; exact N|]. split.
    + intros (t & T). rewrite T. exists ((c :: s) ++ sep ++ t). rewrite <- !app_assoc. reflexivity.
    + intros (t & T). destruct (l_content l) as [|x y] eqn:C using rev_ind.
      * exfalso. rewrite app_nil_r in T. apply app_inj_tail in T as [_ T]. discriminate.
      * exists y. rewrite !app_assoc in T. apply app_inj_tail in T as [_ T]. subst x. reflexivity.
Qed.
Lemma last_starred (s : pystr) c : last_chr s = Ok c -> (c =? 42)%N = true -> s = drop_last s ++ u8 "*".
Proof.
  unfold last_chr, drop_last. intros H E. apply N.eqb_eq in E. subst c. destruct s as [|x s] using rev_ind; [discriminate|]. rewrite rev_app_distr in H. injection H as ->.
  rewrite removelast_last. reflexivity.
Qed.
Lemma last_nonempty (s : pystr) c : last_chr s = Ok c -> s <> [].
Proof. intros H ->. discriminate. Qed.

Lemma feed_sound d m l m' r pre : feed_line d m l = Ok (m', r) -> seen m pre ->
  match r with
  | None => seen m' (pre ++ [l])
  | Some w => m' = machine_init /\ exists g ls, pre ++ [l] = g ++ ls /\ law_written d ls w
  end.
Proof.
  intros H S. unfold feed_line in H. unfold seen in S. destruct (m_state m) eqn:St.
  - destruct S as [S B]. injection H as <- <-. unfold seen. cbn [m_state m_subject m_body]. destruct (is_empty_line l) eqn:E; [|auto].
    apply blank_ok in E. repeat split; auto. exists pre, l. auto.
  - destruct S as (S & B & g & e & -> & E). injection H as <- <-. destruct (match_header (l_content l)) eqn:M; unfold seen; cbn [m_state m_subject m_body m_identifier]; [|auto].
    apply header_ok in M. split; [exact B|]. exists g, e, l, []. rewrite <- app_assoc. split; [reflexivity|]. repeat split; auto.
  - destruct S as (B & g & e & h & ls & -> & E & Hh & I & J). apply bind_ok in H as (c & C & H). destruct (subject_step ls (m_subject m) l J) as (S1 & S2 & S3).
    set (s' := match m_subject m with [] => l_content l | _ => m_subject m ++ u8 " " ++ l_content l end) in *.
    assert (C' : last_chr s' = Ok c) by (unfold s'; destruct (m_subject m); exact C).
    assert (H' : Ok (if (c =? 42)%N then mk_machine BODY_BEFORE_ASTERISK_FOOTER (m_identifier m) (drop_last s') (m_body m)
          else mk_machine HEADER (m_identifier m) s' (m_body m), None) = Ok (m', r)) by (unfold s'; destruct (m_subject m); exact H).
    clear H C. clearbody s'. injection H' as <- <-. pose proof (S2 (last_nonempty _ _ C')) as N. destruct (c =? 42)%N eqn:Q; unfold seen; cbn [m_state m_subject m_body m_identifier].
    + exists g, e, h, (ls ++ [l]). rewrite B, app_nil_r, <- !app_assoc. split; [reflexivity|]. split; [exact E|]. split; [exact Hh|]. split; [exact I|].
      exists ls, l. split; [reflexivity|]. destruct J as (F & _ & _). split; [exact F|]. split; [exact N|]. rewrite <- S1. apply (last_starred _ _ C' Q).
    + split; [exact B|]. exists g, e, h, (ls ++ [l]). rewrite <- !app_assoc. split; [reflexivity|]. split; [exact E|]. split; [exact Hh|]. split; [exact I|].
      destruct J as (F & _ & _). split.
      * apply Forall_app. split; [exact F|]. constructor; [|constructor]. intros T. apply S3 in T as (t & ->). unfold last_chr in C'. rewrite rev_app_distr in C'. injection C' as <-. discriminate.
      * split; [|symmetry; exact S1]. destruct (ls ++ [l]); [exact Logic.I|exact N].
  - destruct S as (g & e & h & ls & -> & E & Hh & I & J). apply bind_ok in H as (f & F & H). destruct f as [b|].
    + injection H as <- <-. apply footnote_sound in F as (a & x & y & z & t & F1 & A & X & Y & Z & ->). unfold seen. cbn [m_state m_subject m_body m_identifier].
      exists g, e, h, ls, (m_body m ++ [l]). rewrite <- !app_assoc. split; [reflexivity|]. split; [exact E|]. split; [exact Hh|]. split; [exact I|]. split; [exact J|].
      rewrite F1. replace (a ++ [x; y; z]) with (a ++ [x; y; z] ++ []) by reflexivity. eapply fc_cut; eauto.
    + destruct (after_ok d m l) as [(a & x & y & A1 & A2 & A3 & A4 & A5)|[_ A5]]; cbv zeta in *; rewrite A5 in H; injection H as <- <-.
      * split; [reflexivity|]. exists g, ([e; h] ++ ls ++ m_body m ++ [l]). split; [rewrite <- !app_assoc; reflexivity|].
        exists e, h, ls, (m_body m ++ [l]), x, y, l. cbn [lw_identifier lw_date lw_subject lw_body]. rewrite A1. repeat split; auto. constructor.
      * unfold seen. cbn [m_state m_subject m_body m_identifier]. rewrite St. exists g, e, h, ls. rewrite <- !app_assoc. repeat split; auto.
  - destruct S as (g & e & h & ls & raw & -> & E & Hh & I & J & K). injection H as H.
    destruct (after_ok d m l) as [(a & x & y & A1 & A2 & A3 & A4 & A5)|[_ A5]]; cbv zeta in *; rewrite A5 in H; injection H as <- <-.
    + split; [reflexivity|]. exists g, ([e; h] ++ ls ++ raw ++ [l]). split; [rewrite <- !app_assoc; reflexivity|].
      exists e, h, ls, (raw ++ [l]), x, y, l. cbn [lw_identifier lw_date lw_subject lw_body]. rewrite <- A1. repeat split; auto. apply cut_snoc. exact K.
    + unfold seen. cbn [m_state m_subject m_body m_identifier]. rewrite St. exists g, e, h, ls, (raw ++ [l]). rewrite <- !app_assoc. repeat split; auto. apply cut_snoc. exact K.
Qed.
Lemma loop_sound d lines : forall m pre, seen m pre -> laws_among d (pre ++ lines) (g_items (law_loop d m lines)).
Proof.
  induction lines as [|l lines IH]; intros m pre S; cbn [law_loop].
  - constructor.
  - destruct (feed_line d m l) as [[m' r]|e] eqn:F; [|constructor]. pose proof (feed_sound _ _ _ _ _ _ F S) as R. cbn [g_items]. destruct r as [w|].
    + destruct R as (-> & g & ls & E & W). replace (pre ++ l :: lines) with (g ++ ls ++ lines) by (rewrite app_assoc, <- E, <- app_assoc; reflexivity).
      cbn [app]. constructor; [exact W|]. apply (IH machine_init []). split; reflexivity.
    + replace (pre ++ l :: lines) with ((pre ++ [l]) ++ lines) by (rewrite <- app_assoc; reflexivity). apply IH. exact R.
Qed.
Theorem laws_sound s : laws_among (ls_date s) (ls_lines s) (g_items (law_extractor s)).
Proof. apply (loop_sound _ _ machine_init []). split; reflexivity. Qed.

(** * What is written is found *)
Lemma loop_step d m l lines m' : feed_line d m l = Ok (m', None) -> law_loop d m (l :: lines) = law_loop d m' lines.
Proof. intros H. cbn [law_loop]. rewrite H. cbn [app]. destruct (law_loop d m' lines); reflexivity. Qed.
Lemma quiet_ok d gap lines : Forall (fun l => ~ blank l) gap -> law_loop d machine_init (gap ++ lines) = law_loop d machine_init lines.
Proof.
  induction 1 as [|l gap N _ IH]; [reflexivity|]. cbn [app]. rewrite <- IH. apply loop_step. unfold feed_line, machine_init. cbn [m_state m_identifier m_subject m_body].
  destruct (is_empty_line l) eqn:E; [apply blank_ok in E; contradiction|reflexivity].
Qed.
Lemma subject_loop d id ls subject lines : subject_written ls subject ->
  law_loop d (mk_machine HEADER id [] []) (ls ++ lines) = law_loop d (mk_machine BODY_BEFORE_ASTERISK_FOOTER id subject []) lines.
Proof.
  intros (ms & l & -> & F & N & J).
  assert (G : forall done todo s, subject_so_far done s -> (match done ++ todo ++ [l] with [] => False | f :: _ => l_content f <> [] end) ->
     Forall (fun m => ~ starred (l_content m)) todo -> join_str (u8 " ") (map l_content (done ++ todo ++ [l])) = subject ++ u8 "*" ->
     law_loop d (mk_machine HEADER id s []) ((todo ++ [l]) ++ lines) = law_loop d (mk_machine BODY_BEFORE_ASTERISK_FOOTER id subject []) lines).
  { intros done todo. revert done. induction todo as [|x todo IH]; intros done s D N' F' J'.
    - cbn [app]. destruct (subject_step done s l D) as (S1 & S2 & S3). apply loop_step. unfold feed_line. cbn [m_state m_identifier m_subject m_body].
      set (s' := match s with [] => l_content l | _ => s ++ u8 " " ++ l_content l end) in *. cbn [app] in J'. rewrite <- S1 in J'.
      replace (match s with [] => l_content l | n :: l0 => (n :: l0) ++ u8 " " ++ l_content l end) with s' by (unfold s'; destruct s; reflexivity). clearbody s'. rewrite J'.
      unfold last_chr, drop_last. rewrite rev_app_distr. cbn [rev app bind]. rewrite removelast_last. reflexivity.
    - inversion F' as [|? ? Fx Ft]; subst. destruct (subject_step done s x D) as (S1 & S2 & S3).
      set (s' := match s with [] => l_content x | _ => s ++ u8 " " ++ l_content x end) in *.
      assert (P : match done ++ [x] with [] => False | f :: _ => l_content f <> [] end) by (destruct done; exact N').
      assert (NE : s' <> []). { rewrite S1. destruct (done ++ [x]) as [|f r]; [contradiction|]. apply join_empty. exact P. }
      assert (D' : subject_so_far (done ++ [x]) s').
      { destruct D as (D & _ & _). split; [apply Forall_app; split; [exact D|constructor; [exact Fx|constructor]]|]. split; [|symmetry; exact S1]. destruct (done ++ [x]); [exact I|exact P]. }
      rewrite <- (IH (done ++ [x]) s').
      + cbn [app]. apply loop_step. unfold feed_line. cbn [m_state m_identifier m_subject m_body].
        replace (match s with [] => l_content x | n :: l0 => (n :: l0) ++ u8 " " ++ l_content x end) with s' by (unfold s'; destruct s; reflexivity).
        destruct s' as [|c s'] using rev_ind; [contradiction|]. unfold last_chr. rewrite rev_app_distr. cbn [rev app bind].
        destruct (c =? 42)%N eqn:Q; [|reflexivity]. exfalso. apply N.eqb_eq in Q. subst c. apply Fx. apply S3. exists s'. reflexivity.
      + exact D'.
      + rewrite <- app_assoc. exact N'.
      + exact Ft.
      + rewrite <- app_assoc. exact J'. }
  apply (G [] ms []); auto. split; [constructor|]. split; [exact I|reflexivity].
Qed.
Lemma no_footnote_prefix a b : no_footnote (a ++ b) -> no_footnote a.
Proof. intros H p x y z q E. apply (H p x y z (q ++ b)). rewrite E, <- !app_assoc. reflexivity. Qed.
Lemma unsigned_prefix a b : unsigned (a ++ b) -> unsigned a.
Proof. intros H p x y z q E. apply (H p x y z (q ++ b)). rewrite E, <- !app_assoc. reflexivity. Qed.
Lemma footnote_none ls : no_footnote ls -> footnote ls = Ok None.
Proof.
  intros H. assert (P : forall a x y z, ls = a ++ [x; y; z] -> a <> [] -> blank x -> blank z -> exists c t, l_content y = c :: t /\ c <> 42%N).
  { intros a x y z E. apply (H a x y z []). rewrite E. reflexivity. }
  pose proof (footnote_ok ls) as F. destruct (footnote ls) as [[b|]|e]; [exfalso|reflexivity|exfalso].
  - destruct F as (a & x & y & z & t & E & A & X & Y & Z & _).
    + intros a x y z E A X Z C. destruct (P a x y z E A X Z) as (c & t & C' & _). congruence.
    + destruct (P a x y z E A X Z) as (c & t' & C & N). rewrite Y in C. injection C as <- _. apply N. reflexivity.
  - apply F. intros a x y z E A X Z C. destruct (P a x y z E A X Z) as (c & t & C' & _). congruence.
Qed.
Lemma after_goes_on d m l : unsigned (m_body m ++ [l]) -> body_after d m l = (mk_machine (m_state m) (m_identifier m) (m_subject m) (m_body m ++ [l]), None).
Proof.
  intros U'. destruct (after_ok d m l) as [(a & x & y & A1 & A2 & A3 & A4 & _)|[_ A]]; [|exact A]. exfalso. cbv zeta in A1. rewrite A1 in U'.
  exact (U' a x y l [] eq_refl A2 A3 A4).
Qed.
Lemma before_loop d id s xs lines : forall b, no_footnote (b ++ xs) -> unsigned (b ++ xs) ->
  law_loop d (mk_machine BODY_BEFORE_ASTERISK_FOOTER id s b) (xs ++ lines) = law_loop d (mk_machine BODY_BEFORE_ASTERISK_FOOTER id s (b ++ xs)) lines.
Proof.
  induction xs as [|x xs IH]; intros b F S; [rewrite app_nil_r; reflexivity|]. replace (b ++ x :: xs) with ((b ++ [x]) ++ xs) in * by (rewrite <- app_assoc; reflexivity).
  cbn [app]. rewrite <- (IH (b ++ [x]) F S). apply loop_step. unfold feed_line. cbn [m_state m_body]. rewrite (footnote_none _ (no_footnote_prefix _ _ F)). cbn [bind].
  rewrite after_goes_on; [reflexivity|]. exact (unsigned_prefix _ _ S).
Qed.
Lemma after_loop d id s xs lines : forall b, unsigned (b ++ xs) ->
  law_loop d (mk_machine BODY_AFTER_ASTERISK_FOOTER id s b) (xs ++ lines) = law_loop d (mk_machine BODY_AFTER_ASTERISK_FOOTER id s (b ++ xs)) lines.
Proof.
  induction xs as [|x xs IH]; intros b S; [rewrite app_nil_r; reflexivity|]. replace (b ++ x :: xs) with ((b ++ [x]) ++ xs) in * by (rewrite <- app_assoc; reflexivity).
  cbn [app]. rewrite <- (IH (b ++ [x]) S). apply loop_step. unfold feed_line. cbn [m_state m_body].
  rewrite after_goes_on; [reflexivity|]. exact (unsigned_prefix _ _ S).
Qed.
Lemma after_ends d m a x y l : m_body m = a ++ [x; y] -> a <> [] -> blank x -> signature (l_content l) ->
  body_after d m l = (machine_init, Some (mk_law (m_identifier m) d (m_subject m) a)).
Proof.
  intros B A X Z. destruct (after_ok d m l) as [(a' & x' & y' & A1 & A2 & A3 & A4 & A5)|[N _]]; cbv zeta in *.
  - rewrite A5. rewrite B, <- app_assoc in A1. cbn [app] in A1. assert (E : a = a').
    { pose proof (f_equal (fun b => firstn (List.length b - 3) b) A1) as E. cbv beta in E. rewrite !firstn_three in E. exact E. }
    subst a'. reflexivity.
  - exfalso. apply (N a x y l); auto. rewrite B, <- app_assoc. reflexivity.
Qed.
Lemma signature_not_blank l : signature (l_content l) -> ~ blank l.
Proof. intros (t & H) B. unfold blank, l_content in *. rewrite B in H. destruct H as [H|H]; discriminate. Qed.

Definition also (w : law_text) (g : gen law_text) : gen law_text := mk_gen (w :: g_items g) (g_end g).
Theorem laws_found d gap e h ls subject raw body x y z rest :
  Forall (fun l => ~ blank l) gap -> blank e -> law_header (l_content h) -> subject_written ls subject -> text_ends raw body x y z ->
  law_loop d machine_init (gap ++ [e; h] ++ ls ++ raw ++ rest) = also (mk_law (l_content h) d subject body) (law_loop d machine_init rest).
Proof.
  intros G E Hh S (B & X & Z & Un & R). rewrite quiet_ok by exact G. apply blank_ok in E. apply header_ok in Hh. cbn [app].
  rewrite (loop_step d machine_init e _ (mk_machine WAITING_FOR_HEADER [] [] [])) by (unfold feed_line, machine_init; cbn [m_state m_identifier m_subject m_body]; rewrite E; reflexivity).
  rewrite (loop_step d _ h _ (mk_machine HEADER (l_content h) [] [])) by (unfold feed_line; cbn [m_state m_identifier m_subject m_body]; rewrite Hh; reflexivity).
  rewrite (subject_loop _ _ _ subject) by exact S. destruct R as [[-> F]|(before & fx & fy & fz & after & t & -> & Q & Be & Fx & Fy & Fz & F & Un')].
  - replace ((body ++ [x; y; z]) ++ rest) with ((body ++ [x; y]) ++ z :: rest) by (rewrite <- !app_assoc; reflexivity). rewrite before_loop by assumption. cbn [app law_loop].
    unfold feed_line. cbn [m_state m_body]. rewrite footnote_none.
    + cbn [bind]. rewrite (after_ends d _ body x y z) by auto. cbn [m_identifier m_subject]. reflexivity.
    + intros p x' y' z' q E' P X' Z'. destruct q as [|w q _] using rev_ind.
      * exfalso. apply (signature_not_blank z Z). rewrite app_nil_r in E'. change [x'; y'; z'] with ([x'; y'] ++ [z']) in E'. rewrite app_assoc in E'. apply app_inj_tail in E' as [_ ->]. exact Z'.
      * rewrite !app_assoc in E'. apply app_inj_tail in E' as [E' _]. rewrite <- app_assoc in E'. apply (F p x' y' z' q); auto.
  - replace ((before ++ [fx; fy; fz] ++ after ++ [z]) ++ rest) with ((before ++ [fx; fy]) ++ fz :: after ++ z :: rest) by (rewrite <- !app_assoc; reflexivity).
    rewrite before_loop by assumption. cbn [app].
    rewrite (loop_step d _ fz _ (mk_machine BODY_AFTER_ASTERISK_FOOTER (l_content h) subject (before ++ [EMPTY_LINE]))).
    + rewrite after_loop by (rewrite <- app_assoc; cbn [app]; rewrite Q; exact Un). rewrite <- app_assoc. cbn [app]. rewrite Q. cbn [law_loop]. unfold feed_line. cbn [m_state m_body].
      rewrite (after_ends d _ body x y z) by auto. reflexivity.
    + unfold feed_line. cbn [m_state m_body]. assert (Ft : footnote ((before ++ [fx; fy]) ++ [fz]) = Ok (Some (before ++ [EMPTY_LINE]))).
      { unfold footnote. rewrite <- app_assoc. cbn [app]. assert (L : (List.length (before ++ [fx; fy; fz]) <? 4)%nat = false).
        { rewrite app_length. cbn [List.length]. destruct before; [contradiction|]. cbn [List.length]. lia. }
        rewrite L. assert (T : last_three (before ++ [fx; fy; fz]) = Some (fx, fy, fz)) by (apply last_three_ok; exists before; reflexivity). rewrite T.
        apply blank_ok in Fx, Fz. rewrite Fx, Fz. cbn [andb]. rewrite Fy, firstn_three. reflexivity. }
      rewrite Ft. reflexivity.
Qed.

Theorem recognized_ok l p pages dl : nth_error (l :: p) 3 = Some dl ->
  ((exists u w, l_content l = u ++ u8 "MAGYAR KÖZLÖNY" ++ w) ->
     header_extractor ((l :: p) :: pages) =
       match from_hungarian_text (l_content dl) with
       | Ok d => mk_gen [mk_issue d (mk_headed (firstn 5 (l :: p)) (skipn 5 (l :: p)) :: map (fun q => mk_headed (firstn 2 q) (skipn 2 q)) ((l :: p) :: pages))] None
       | Err e => mk_gen [] (Some e)
       end) /\
  (~ (exists u w, l_content l = u ++ u8 "MAGYAR KÖZLÖNY" ++ w) -> header_extractor ((l :: p) :: pages) = mk_gen [] None).
Proof.
  intros N. unfold header_extractor, is_magyar_kozlony. pose proof (contains_sub_spec (u8 "MAGYAR KÖZLÖNY") (l_content l)) as S.
  destruct (contains_sub _ _) eqn:C; split; intros H.
  - cbn [hd]. rewrite N. destruct (from_hungarian_text (l_content dl)); reflexivity.
  - destruct H. now apply S.
  - apply S in H. discriminate.
  - reflexivity.
Qed.
