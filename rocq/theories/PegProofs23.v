(* Identifiers and parts of references, read forwards. *)
From Verif Require Import PyBase PyBaseFacts Unicode UnicodeAlnum NumModel IdModel LineModel DateModel RefModel TreeModel StructModel SemModel GramModel GramSpec PegModel PegSpec PegSpec2 PegProofs PegProofs2 PegProofs22.
From Coq Require Import Lia.
Local Open Scope Z_scope.

(** * Ends of parts *)

Definition spread (r : N * N) : list N := map (fun k => fst r + N.of_nat k)%N (seq 0 (S (N.to_nat (snd r - fst r)))).
Lemma in_spread rs c : in_ranges rs c = true -> In c (flat_map spread rs).
Proof.
  unfold in_ranges. intros H. apply existsb_exists in H as (r & R & H). apply in_flat_map. exists r. split; [exact R|].
  unfold spread. apply in_map_iff. exists (N.to_nat (c - fst r)). split; [lia|]. apply in_seq. lia.
Qed.
Definition space_test (f : N -> bool) : bool := forallb f (flat_map spread isspace_ranges).
Lemma space_all f c : space_test f = true -> isspace_chr c = true -> f c = true.
Proof. intros F H. unfold space_test in F. rewrite forallb_forall in F. apply F. now apply in_spread. Qed.

(* what may follow a part *)
Definition gap (s : pystr) : Prop := match s with [] => True | c :: _ => isspace_chr c = true \/ In c (u8 ".,;") end.
Definition gap_chr (c : N) : bool := negb (c_small c) && negb (isalnum_chr c) && negb (c =? 45)%N && negb (c_09 c) && negb (c_az c) && negb (c_word c).
Lemma gap_facts c s : gap (c :: s) -> c_small c = false /\ isalnum_chr c = false /\ c <> 45%N /\ c_09 c = false /\ c_word c = false.
Proof.
  intros H. assert (G : gap_chr c = true).
  { destruct H as [H|H]; [revert H; apply space_all; vm_compute; reflexivity|]. repeat (destruct H as [<-|H]; [vm_compute; reflexivity|]). destruct H. }
  unfold gap_chr in G. apply andb_prop in G as [G G6]. apply andb_prop in G as [G _]. apply andb_prop in G as [G G4]. apply andb_prop in G as [G G3]. apply andb_prop in G as [G1 G2].
  repeat split; try (now apply negb_true_iff). apply negb_true_iff in G3. intros ->. discriminate.
Qed.
Lemma gap_end s : gap s -> match s with c :: _ => c_small c = false /\ isalnum_chr c = false | [] => True end.
Proof. destruct s as [|c s]; [easy|]. intros H. now apply gap_facts in H as (? & ? & _). Qed.
Lemma gap_space s : gap (32%N :: s). Proof. now left. Qed.

(* § with its ending *)
Lemma sign_yes e s : sign_ending e -> gap s -> exists x, g_article_suffix (u8 "§" ++ e ++ s) = Some (x, s).
Proof.
  intros [->|(l & -> & N & L)] G.
  - exists (u8 "§"). unfold g_article_suffix, p_rule. cbn [app]. rewrite ws_solid_head by reflexivity. rewrite or_no; [apply (tok_yes (u8 "§") s); [reflexivity|intros X; discriminate X]|].
    unfold p_suffixed, p_re. cbn [r_match after_prefix]. destruct s as [|c s]; [reflexivity|]. apply gap_facts in G as (_ & _ & G & _). change (167 =? 167)%N with true. cbv iota. destruct (N.eqb_spec 45 c); [congruence|reflexivity].
  - exists (u8 "§-" ++ l). unfold g_article_suffix, p_rule. cbn [app]. rewrite ws_solid_head by reflexivity. apply or_yes. apply (suffixed_yes (u8 "§-") l s); [exact N|now apply smalls_b|]. destruct s as [|c s]; [exact I|]. now apply gap_facts in G as (? & _).
Qed.
Lemma sign_no s : lc s <> 167%N -> g_article_suffix s = None.
Proof. intros H. unfold g_article_suffix, p_rule. rewrite or_no; [apply tok_no; now rewrite lc_ws|]. apply suffixed_no. unfold lc in H. destruct (ws s); [exact I|exact H]. Qed.
Definition unit_parser (t : part_type) : parser pystr :=
  match t with
  | PArticle => g_article_suffix
  | PParagraph => g_paragraph_suffix
  | PAlphabeticPoint | PNumericPoint => g_point_suffix
  | PAlphabeticSubpoint | PNumericSubpoint => g_subpoint_suffix
  end.
Lemma unit_reads t e s : unit_ending t e -> gap s -> exists x, unit_parser t (u8 " " ++ unit_text t ++ e ++ s) = Some (x, s).
Proof.
  intros E G. destruct t; cbn [unit_ending unit_text unit_parser] in *.
  - exact (sign_yes e s E G).
  - exact (unit_yes (u8 "bekezdés") e s eq_refl E (gap_end s G)).
  - exact (unit_yes (u8 "pont") e s eq_refl E (gap_end s G)).
  - exact (unit_yes (u8 "pont") e s eq_refl E (gap_end s G)).
  - exact (unit_yes (u8 "alpont") e s eq_refl E (gap_end s G)).
  - exact (unit_yes (u8 "alpont") e s eq_refl E (gap_end s G)).
Qed.

(** * Small parsers *)

Lemma dash_yes d s : is_dash d -> g_dash (d :: s) = Some ([d], s).
Proof. intros H. repeat (destruct H as [<-|H]; [reflexivity|]). destruct H. Qed.
Lemma dash_no s : ~ is_dash (lc s) -> g_dash s = None.
Proof.
  intros H. unfold g_dash, p_rule. apply toks_no. rewrite lc_ws. unfold is_dash in H. cbn [In] in H.
  repeat constructor; intros E; apply H; rewrite E; cbn; tauto.
Qed.
Lemma separator_no s : ~ In (lc s) (u8 ",;évi") -> g_separator s = Some (tt, s).
Proof.
  intros H. cbn [In] in H. unfold g_separator. rewrite (bind_yes _ _ _ None s); [reflexivity|]. apply opt_no, bind_no. unfold g_list_separator, p_rule.
  assert (T : forall l, forallb (fun w => match w with a :: _ => in_str (u8 ",;évi") a | [] => false end) l = true -> p_toks l (ws s) = None).
  { intros l L. apply toks_no. rewrite lc_ws. rewrite Forall_forall. rewrite forallb_forall in L. intros w W. specialize (L w W). destruct w as [|a w]; [discriminate|]. apply in_str_in in L. intros E. apply H. rewrite E. exact L. }
  rewrite or_no. { apply tok_no. rewrite lc_ws. intros E. apply H. rewrite E. cbn. tauto. }
  rewrite or_no. { apply tok_no. rewrite lc_ws. intros E. apply H. rewrite E. cbn. tauto. }
  rewrite (bind_yes _ _ _ None (ws s)); [apply T; reflexivity|]. apply opt_no. apply T. reflexivity.
Qed.
Lemma capital_b c : is_capital c -> c_AZ c = true. Proof. unfold is_capital, c_AZ. lia. Qed.
Lemma small_b c : is_small c -> c_az c = true. Proof. unfold is_small, c_az. lia. Qed.
Lemma dash_chr d : is_dash d -> isspace_chr d = false /\ c_09 d = false /\ c_az d = false /\ c_AZ d = false /\ d <> 47%N /\ d <> 58%N /\ d <> 41%N /\ d <> 46%N /\ isalnum_chr d = false.
Proof. intros H. repeat (destruct H as [<-|H]; [repeat split; (reflexivity || discriminate)|]). destruct H. Qed.

(* a character after an identifier: . or ) or a dash *)
Definition stop (s : pystr) : Prop := match s with c :: _ => In c (u8 ".)−–-") | [] => False end.
Lemma stop_facts c s : stop (c :: s) -> isspace_chr c = false /\ c_09 c = false /\ c_az c = false /\ c_AZ c = false /\ c <> 47%N /\ c <> 58%N /\ isalnum_chr c = false.
Proof. intros H. repeat (destruct H as [<-|H]; [repeat split; (reflexivity || discriminate)|]). destruct H. Qed.
Lemma stop_dot s : stop (46%N :: s). Proof. cbn. tauto. Qed.
Lemma stop_paren s : stop (41%N :: s). Proof. cbn. tauto. Qed.
Lemma stop_dash d s : is_dash d -> stop (d :: s). Proof. unfold is_dash. cbn. tauto. Qed.

(** * Identifiers *)

Definition id_parser (t : part_type) : parser (list pystr) :=
  match t with
  | PArticle => g_article_id
  | PParagraph => g_paragraph_id
  | PAlphabeticPoint => g_alphabetic_point_id
  | PNumericPoint => g_numeric_point_id
  | PAlphabeticSubpoint => g_alphabetic_subpoint_id
  | PNumericSubpoint => g_numeric_subpoint_id
  end.
Lemma digits_head n : digits n -> exists c t, n = c :: t /\ c_09 c = true.
Proof. intros [N D]. destruct n as [|c t]; [congruence|]. exists c, t. split; [reflexivity|]. inversion D; subst. unfold c_09. lia. Qed.
Lemma ws_digits n s : digits n -> ws (n ++ s) = n ++ s.
Proof. intros D. destruct (digits_head n D) as (c & t & -> & C). cbn [app]. apply ws_solid_head. now apply digit_space. Qed.
Lemma stop_digit s : stop s -> match s with c :: _ => c_09 c = false | [] => True end.
Proof. destruct s as [|c s]; [easy|]. intros H. now apply stop_facts in H as (_ & ? & _). Qed.
Lemma stop_lc s : stop s -> lc s = hd 0%N s.
Proof. destruct s as [|c s]; [easy|]. intros H. apply stop_facts in H as (? & _). now apply lc_solid. Qed.
Lemma lc_cons c s : isspace_chr c = false -> lc (c :: s) = c. Proof. apply lc_solid. Qed.
Lemma small_tail_no s : stop s -> p_re (RSet c_az) s = None.
Proof. intros H. rewrite re_set. destruct s as [|c s]; [reflexivity|]. apply stop_facts in H as (_ & _ & -> & _). reflexivity. Qed.

Lemma article_tail s : stop s -> p_opt (c <~ p_tok (u8 "/") ;; x <~ p_re (RSet c_AZ) ;; p_ret [c; x]) s = Some (None, s).
Proof. intros H. apply opt_no, bind_no, tok_no. rewrite stop_lc by exact H. destruct s as [|c s]; [easy|]. now apply stop_facts in H as (_ & _ & _ & _ & ? & _). Qed.
Lemma article_letter c s : is_capital c -> p_opt (c <~ p_tok (u8 "/") ;; x <~ p_re (RSet c_AZ) ;; p_ret [c; x]) (47%N :: c :: s) = Some (Some [[47%N]; [c]], s).
Proof. intros C. apply opt_yes. rewrite (bind_yes _ _ _ (u8 "/") (c :: s)) by reflexivity. rewrite (bind_yes _ _ _ [c] s); [reflexivity|]. rewrite re_set. now rewrite capital_b. Qed.
Lemma article_reads i s : article_shape i -> stop s -> exists l, g_article_id (i ++ s) = Some (l, s) /\ concat l = i.
Proof.
  intros I S.
  assert (B : forall b t, digits b -> p_opt (n <~ g_number ;; c <~ p_tok (u8 ":") ;; p_ret [n; c]) (b ++ 58%N :: t) = Some (Some [b; [58%N]], t)).
  { intros b t D. apply opt_yes. rewrite (bind_yes _ _ _ _ _ (number_yes b (58%N :: t) D eq_refl)). now rewrite (bind_yes _ _ _ (u8 ":") t) by reflexivity. }
  assert (NB : forall n t, digits n -> match t with c :: _ => c_09 c = false /\ isspace_chr c = false /\ c <> 58%N | [] => False end -> p_opt (n <~ g_number ;; c <~ p_tok (u8 ":") ;; p_ret [n; c]) (n ++ t) = Some (None, n ++ t)).
  { intros n t D T. apply opt_no. destruct t as [|c t]; [easy|]. destruct T as (T1 & T2 & T3). rewrite (bind_yes _ _ _ _ _ (number_yes n (c :: t) D T1)). apply bind_no, tok_no. now rewrite lc_solid. }
  assert (SS : match s with c :: _ => c_09 c = false /\ isspace_chr c = false /\ c <> 58%N | [] => False end).
  { destruct s as [|c s]; [easy|]. apply stop_facts in S as (? & ? & _ & _ & _ & ? & _). auto. }
  unfold g_article_id, p_rule. destruct I as [n D|n c D C|b n Db D|b n c Db D C].
  - rewrite ws_digits by exact D. unfold g_article_id_group. rewrite (bind_yes _ _ _ _ _ (NB n s D SS)), (bind_yes _ _ _ _ _ (number_yes n s D (stop_digit s S))), (bind_yes _ _ _ _ _ (article_tail s S)).
    eexists. split; [reflexivity|]. cbn. apply app_nil_r.
  - rewrite <- app_assoc. rewrite ws_digits by exact D. cbn [app]. unfold g_article_id_group. rewrite (bind_yes _ _ _ _ _ (NB n (47%N :: c :: s) D ltac:(repeat split; discriminate))).
    rewrite (bind_yes _ _ _ _ _ (number_yes n (47%N :: c :: s) D eq_refl)), (bind_yes _ _ _ _ _ (article_letter c s C)). eexists. split; [reflexivity|]. reflexivity.
  - rewrite <- !app_assoc. rewrite ws_digits by exact Db. cbn [app]. unfold g_article_id_group. rewrite (bind_yes _ _ _ _ _ (B b (n ++ s) Db)), (bind_yes _ _ _ _ _ (number_yes n s D (stop_digit s S))), (bind_yes _ _ _ _ _ (article_tail s S)).
    eexists. split; [reflexivity|]. cbn. now rewrite app_nil_r.
  - rewrite <- !app_assoc. rewrite ws_digits by exact Db. cbn [app]. unfold g_article_id_group. rewrite (bind_yes _ _ _ _ _ (B b (n ++ 47%N :: c :: s) Db)), (bind_yes _ _ _ _ _ (number_yes n (47%N :: c :: s) D eq_refl)), (bind_yes _ _ _ _ _ (article_letter c s C)).
    eexists. split; [reflexivity|]. reflexivity.
Qed.
Lemma paragraph_reads i s : paragraph_shape i -> stop s -> exists l, g_paragraph_id (i ++ s) = Some (l, s) /\ concat l = i.
Proof.
  intros (n & l & -> & D & L) S. unfold g_paragraph_id, p_rule. rewrite <- app_assoc. rewrite ws_digits by exact D. destruct L as [|c C].
  - rewrite (bind_yes _ _ _ _ _ (number_yes n s D (stop_digit s S))). rewrite (bind_yes _ _ _ None s) by (apply opt_no; now apply small_tail_no). eexists. split; [reflexivity|]. reflexivity.
  - cbn [app]. assert (X : c_09 c = false) by (unfold c_09, is_small in *; lia). rewrite (bind_yes _ _ _ _ _ (number_yes n (c :: s) D X)).
    rewrite (bind_yes _ _ _ (Some [c]) s); [|apply opt_yes; rewrite re_set; now rewrite small_b]. eexists. split; [reflexivity|]. reflexivity.
Qed.
Lemma point_number_reads i s : point_number i -> stop s -> exists l, g_numeric_point_id (i ++ s) = Some (l, s) /\ concat l = i.
Proof.
  intros I S. unfold g_numeric_point_id, p_rule. destruct I as [n D|n c D C|n c D C].
  - rewrite ws_digits by exact D. rewrite (bind_yes _ _ _ _ _ (number_yes n s D (stop_digit s S))). rewrite (bind_yes _ _ _ None s).
    + eexists. split; [reflexivity|]. cbn. apply app_nil_r.
    + apply opt_no. rewrite (bind_yes _ _ _ None s).
      * apply bind_no. now apply small_tail_no.
      * apply opt_no, tok_no. rewrite stop_lc by exact S. destruct s as [|c s]; [easy|]. now apply stop_facts in S as (_ & _ & _ & _ & ? & _).
  - rewrite <- app_assoc. rewrite ws_digits by exact D. cbn [app]. assert (X : c_09 c = false) by (unfold c_09, is_small in *; lia). rewrite (bind_yes _ _ _ _ _ (number_yes n (c :: s) D X)).
    rewrite (bind_yes _ _ _ (Some [[c]]) s); [eexists; split; [reflexivity|]; reflexivity|]. apply opt_yes. rewrite (bind_yes _ _ _ None (c :: s)).
    + rewrite (bind_yes _ _ _ [c] s); [reflexivity|]. rewrite re_set. now rewrite small_b.
    + apply opt_no, tok_no. rewrite lc_solid by (apply az_space; now apply small_b). unfold is_small in C. intros ->. lia.
  - rewrite <- app_assoc. rewrite ws_digits by exact D. cbn [app]. rewrite (bind_yes _ _ _ _ _ (number_yes n (47%N :: c :: s) D eq_refl)).
    rewrite (bind_yes _ _ _ (Some [[47%N]; [c]]) s); [eexists; split; [reflexivity|]; reflexivity|]. apply opt_yes. rewrite (bind_yes _ _ _ (Some (u8 "/")) (c :: s)) by reflexivity.
    rewrite (bind_yes _ _ _ [c] s); [reflexivity|]. rewrite re_set. now rewrite small_b.
Qed.
Lemma small_solid c : is_small c -> isspace_chr c = false.
Proof. intros H. apply az_space. now apply small_b. Qed.
Lemma letter_reads i s : letter_shape i -> stop s -> exists l, g_alphabetic_point_id (i ++ s) = Some (l, s) /\ concat l = i.
Proof.
  intros I S. assert (NG : name_goes_on s = false). { destruct s as [|c s]; [easy|]. now apply stop_facts in S as (_ & _ & _ & _ & _ & _ & ?). }
  destruct I as [(c & -> & C)|[->| ->]].
  - exists [[c]]. split; [|reflexivity]. unfold g_alphabetic_point_id, p_rule. cbn [app]. rewrite ws_solid_head by now apply small_solid. apply (map_yes (fun x => [x])).
    assert (T : forall a b, c_az b = true -> p_tok [a; b] (c :: s) = None).
    { intros a b B. unfold p_tok. rewrite ws_solid_head by now apply small_solid. cbn [after_prefix]. destruct (N.eqb_spec a c); [|reflexivity]. destruct s as [|x s]; [reflexivity|]. destruct (N.eqb_spec b x); [|reflexivity].
      apply stop_facts in S as (_ & _ & S & _). congruence. }
    rewrite or_no by (rewrite or_no; apply T; reflexivity). rewrite re_set. now rewrite small_b.
  - exists [u8 "ny"]. split; [|reflexivity]. unfold g_alphabetic_point_id, p_rule. cbn [app]. rewrite ws_solid_head by reflexivity. apply (map_yes (fun x => [x])), or_yes, or_yes. apply (tok_yes (u8 "ny") s); [reflexivity|auto].
  - exists [u8 "sz"]. split; [|reflexivity]. unfold g_alphabetic_point_id, p_rule. cbn [app]. rewrite ws_solid_head by reflexivity. apply (map_yes (fun x => [x])), or_yes.
    rewrite or_no by (apply tok_no; discriminate). apply (tok_yes (u8 "sz") s); [reflexivity|auto].
Qed.
Lemma sub_letter_reads i s : sub_letter i -> stop s -> exists l, g_alphabetic_subpoint_id (i ++ s) = Some (l, s) /\ concat l = i.
Proof.
  intros (c & l & -> & C & L) S. exists [c :: l]. split; [|cbn; now rewrite app_nil_r]. unfold g_alphabetic_subpoint_id, p_rule. cbn [app]. rewrite ws_solid_head by now apply small_solid.
  apply (map_yes (fun x => [x])). change (c :: l ++ s) with ((c :: l) ++ s). apply re_of_match. cbn [r_match app]. rewrite small_b by exact C. destruct L as [|x X]; cbn [app].
  - destruct s as [|y s]; [easy|]. apply stop_facts in S as (_ & _ & -> & _). reflexivity.
  - now rewrite small_b.
Qed.
Lemma id_reads t i s : part_id t i -> stop s -> exists l, id_parser t (i ++ s) = Some (l, s) /\ concat l = i.
Proof.
  destruct t; cbn [part_id id_parser]; intros I S.
  - now apply article_reads.
  - now apply paragraph_reads.
  - now apply letter_reads.
  - now apply point_number_reads.
  - now apply sub_letter_reads.
  - exists [i]. split; [|cbn; apply app_nil_r]. unfold g_numeric_subpoint_id, p_rule. rewrite ws_digits by exact I. apply (map_yes (fun x => [x])). apply number_yes; [exact I|now apply stop_digit].
Qed.
