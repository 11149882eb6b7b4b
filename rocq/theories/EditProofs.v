From Coq Require Import Lia.
From Coq Require Import ZifyBool ZifyNat ZifyN.
From Verif Require Import PyBase PyBaseFacts IdModel LineModel LineSpec DateModel RefModel TreeModel FixupModel FixupSpec LineProofs FixupProofs GazModel StructModel SemModel HtmlModel TxtModel PipeModel EditModel EditSpec.
Local Open Scope Z_scope.

Lemma slice_before (new : list pystr) i k : (i <= List.length new)%nat -> exists a, firstn i new = a ++ py_slice (Z.of_nat i - k) (Z.of_nat i) new.
Proof.
  intros L. unfold py_slice. assert (E : norm_bound (List.length new) (Z.of_nat i) = i) by (unfold norm_bound; destruct (Z.of_nat i <? 0) eqn:E; lia). rewrite E.
  set (n := norm_bound _ _). clearbody n. unfold slice_nat. destruct (Nat.le_gt_cases n i) as [C|C].
  - exists (firstn n new). rewrite <- (firstn_skipn n (firstn i new)). rewrite firstn_firstn, Nat.min_l by lia. f_equal. now rewrite skipn_firstn_comm.
  - exists (firstn i new). replace (i - n)%nat with O by lia. now rewrite app_nil_r.
Qed.
Lemma sub_in (a needle b : list pystr) : b <> [] ->
  In (List.length a) (filter (fun i => list_eqb str_eqb (py_slice (Z.of_nat i) (Z.of_nat (i + List.length needle)) (a ++ needle ++ b)) needle)
                        (seq 0 (List.length (a ++ needle ++ b) - List.length needle))).
Proof.
  intros B. apply filter_In. split.
  - apply in_seq. rewrite !app_length. destruct b; [now destruct B|]. cbn. lia.
  - unfold py_slice, norm_bound. replace (Z.of_nat (List.length a) <? 0) with false by lia. replace (Z.of_nat (List.length a + List.length needle) <? 0) with false by lia.
    rewrite !Nat2Z.id, !app_length, !Nat.min_l by lia. unfold slice_nat. rewrite skipn_app, skipn_all, Nat.sub_diag. cbn [skipn app].
    replace (List.length a + List.length needle - List.length a)%nat with (List.length needle) by lia.
    rewrite firstn_app, firstn_all, Nat.sub_diag, firstn_O, app_nil_r. apply (list_eqb_eq str_eqb str_eqb_eq). reflexivity.
Qed.
Lemma sub_once (s needle a b a' b' : list pystr) : count_sublists s needle = 1%nat -> s = a ++ needle ++ b -> s = a' ++ needle ++ b' -> b <> [] -> b' <> [] -> List.length a = List.length a'.
Proof.
  unfold count_sublists. intros C -> E' B B'. pose proof (sub_in a needle b B) as I. pose proof (sub_in a' needle b' B') as I'. rewrite <- E' in I'.
  destruct (filter _ _) as [|x [|]]; try discriminate. destruct I as [->|[]], I' as [->|[]]. reflexivity.
Qed.
Lemma split_two {A} (a : list A) : forall x c b y d, a ++ x :: c = b ++ y :: d ->
  (a = b /\ x = y /\ c = d) \/ (exists m, b = a ++ x :: m /\ c = m ++ y :: d) \/ (exists m, a = b ++ y :: m /\ d = m ++ x :: c).
Proof.
  induction a as [|z a IH]; intros x c [|w b] y d E; cbn in *.
  - injection E as -> ->. left. auto.
  - injection E as -> ->. right. left. exists b. auto.
  - injection E as -> <-. right. right. exists a. auto.
  - injection E as -> E. destruct (IH _ _ _ _ _ E) as [(-> & -> & ->)|[(m & -> & ->)|(m & -> & ->)]]; [left; auto|right; left; exists m; auto|right; right; exists m; auto].
Qed.
(* the context of a line is a right one *)
Definition context_ok (pn : list pystr) (o : pystr) (os : list pystr) (prev : option (list pystr)) : Prop :=
  prev = None \/ exists ps a, prev = Some ps /\ pn = a ++ ps /\ (ps = [] \/ (os <> [] /\ count_sublists (pn ++ o :: os) (ps ++ [o]) = 1%nat)).
Lemma context_meant pn o os prev : context_ok pn o os prev -> meant o prev pn o.
Proof. intros [-> |(ps & a & -> & -> & _)]; split; auto. exists a. reflexivity. Qed.
Lemma step_right b1 l b2 o n prev body' : l_content l = o -> n <> [] -> one_char_parts l -> context_ok (map l_content b1) o (map l_content b2) prev ->
  replace_line_content o n prev (b1 ++ l :: b2) = Ok body' -> exists l', edited o n l l' /\ body' = b1 ++ l' :: b2.
Proof.
  intros Lo N OC CX R. apply replace_spec in R as (a & l0 & c & new & E & NL & M1 & M2 & M3 & ->).
  symmetry in E. destruct (split_two _ _ _ _ _ _ E) as [(-> & -> & ->)|[(m & -> & ->)|(m & -> & ->)]].
  - destruct (replaced_chars o n l OC Lo) as (l' & R & ED). unfold new_lines in NL. destruct n as [|n0 n]; [now destruct N|]. rewrite R in NL. cbn [bind] in NL. injection NL as <-.
    exists l'. split; [exact ED|reflexivity].
  - exfalso. destruct CX as [-> |(ps & p & -> & Ep & [-> |[Ne CS]])].
    + rewrite none_meant_spec in M3. apply (M3 (map l_content m) o (map l_content b2)); [now rewrite map_app; cbn [map]; rewrite Lo|]. split; auto.
    + rewrite none_meant_spec in M3. apply (M3 (map l_content m) o (map l_content b2)); [now rewrite map_app; cbn [map]; rewrite Lo|]. split; auto. eexists. now rewrite app_nil_r.
    + apply meantb_spec in M2 as [M2 (a' & Ea)]. rewrite map_app in Ep, CS. cbn [map] in Ep, CS. rewrite M2 in Ep, CS. rewrite Ea in Ep, CS.
      assert (L : List.length a' = List.length p).
      { eapply sub_once with (b := map l_content m ++ o :: map l_content b2) (b' := map l_content b2); [exact CS| | | |exact Ne].
        - repeat (rewrite <- ?app_assoc; cbn [app]). reflexivity.
        - rewrite Ep. repeat (rewrite <- ?app_assoc; cbn [app]). reflexivity.
        - destruct (map l_content m); discriminate. }
      apply (f_equal (@List.length _)) in Ep. rewrite !app_length in Ep. cbn [List.length] in Ep. lia.
  - exfalso. rewrite none_meant_spec in M1. apply (M1 (map l_content b1) o (map l_content m)); [now rewrite map_app; cbn [map]; rewrite Lo|].
    exact (context_meant _ _ _ _ CX).
Qed.
Lemma slice_start (l : list pystr) i : (i <= List.length l)%nat -> py_slice 0 (Z.of_nat i) l = firstn i l.
Proof. intros L. unfold py_slice, norm_bound, slice_nat. replace (Z.of_nat i <? 0) with false by lia. cbn [Z.ltb Z.compare]. rewrite Nat2Z.id, Nat.min_l by lia. cbn. now rewrite Nat.sub_0_r. Qed.
Lemma slice_end (l : list pystr) i : (i <= List.length l)%nat -> py_slice (Z.of_nat i) (Z.of_nat (List.length l)) l = skipn i l.
Proof.
  intros L. unfold py_slice, norm_bound, slice_nat. replace (Z.of_nat i <? 0) with false by lia. replace (Z.of_nat (List.length l) <? 0) with false by lia.
  rewrite !Nat2Z.id, !Nat.min_l by lia. rewrite <- (skipn_length i l). apply firstn_all.
Qed.
Lemma context_found pn ns po o os n lens r : List.length po = List.length pn -> List.length ns = List.length os ->
  with_context (po ++ o :: os) (pn ++ n :: ns) (Z.of_nat (List.length pn)) o n lens = Ok r ->
  exists ps a, r = mk_repl o n (Some ps) /\ pn = a ++ ps /\ count_sublists (pn ++ o :: os) (ps ++ [o]) = 1%nat.
Proof.
  intros L1 L2. induction lens as [|k lens IH]; intros H; cbn [with_context] in H; [discriminate|]. cbv zeta in H.
  rewrite (slice_start (pn ++ n :: ns)), slice_end in H by (rewrite app_length; cbn [List.length]; lia).
  assert (SK : skipn (List.length pn) (po ++ o :: os) = o :: os) by (rewrite <- L1, skipn_app, skipn_all, Nat.sub_diag; reflexivity).
  assert (FI : firstn (List.length pn) (pn ++ n :: ns) = pn) by (rewrite firstn_app, firstn_all, Nat.sub_diag, firstn_O, app_nil_r; reflexivity).
  rewrite SK, FI in H.
  destruct (Nat.eqb _ 1) eqn:E; [|apply IH, H]. apply Nat.eqb_eq in E. injection H as <-.
  destruct (slice_before (pn ++ n :: ns) (List.length pn) k) as (a & Ea); [rewrite app_length; lia|].
  rewrite FI in Ea. eexists _, a. split; [reflexivity|]. split; [exact Ea|exact E].
Qed.
Lemma count_line_none x l : ~ In x l -> count_line x l = O.
Proof. unfold count_line. induction l as [|y l IH]; intros N; [reflexivity|]. cbn. destruct (str_eqb x y) eqn:E; [apply str_eqb_eq in E; subst; destruct N; now left|]. apply IH. intros I. apply N. now right. Qed.
Lemma count_line_once x a b : ~ In x a -> ~ In x b -> count_line x (a ++ x :: b) = 1%nat.
Proof. intros A B. unfold count_line. rewrite filter_app, app_length. cbn. rewrite str_eqb_refl. cbn. pose proof (count_line_none x a A) as CA. pose proof (count_line_none x b B) as CB. unfold count_line in *. lia. Qed.

Lemma extract_right : forall os ns po pn b1 b2 rs body', List.length po = List.length pn -> List.length ns = List.length os ->
  none_emptied os ns -> last_line_fine (po ++ os) (pn ++ ns) -> map l_content b1 = pn -> map l_content b2 = os -> Forall one_char_parts b2 ->
  extract_loop (po ++ os) (pn ++ ns) (Z.of_nat (List.length pn)) (combine os ns) = Ok rs ->
  run_fixups (map fixup_of rs) (b1 ++ b2) = Ok body' -> exists b2', edited_as b2 ns b2' /\ body' = b1 ++ b2'.
Proof.
  induction os as [|o os IH]; intros [|n ns] po pn b1 b2 rs body' L1 L2 NE LF C1 C2 OC X R; try discriminate.
  - cbn [combine extract_loop] in X. injection X as <-. cbn in R. injection R as <-. destruct b2; [|discriminate]. exists []. split; [constructor|reflexivity].
  - destruct b2 as [|l b2]; [discriminate|]. cbn [map] in C2. injection C2 as Lo C2. apply Forall_cons_iff in OC as [OC OC'].
    injection L2 as L2. cbn [combine extract_loop] in X.
    assert (NE' : none_emptied os ns) by (intros x I; apply NE; now right).
    assert (S1 : po ++ o :: os = (po ++ [o]) ++ os) by (now rewrite <- app_assoc). assert (S2 : pn ++ n :: ns = (pn ++ [n]) ++ ns) by (now rewrite <- app_assoc).
    assert (SL : Z.of_nat (List.length pn) + 1 = Z.of_nat (List.length (pn ++ [n]))) by (rewrite app_length; cbn; lia).
    assert (L1' : List.length (po ++ [o]) = List.length (pn ++ [n])) by (rewrite !app_length; cbn; lia).
    destruct (str_eqb o n) eqn:E.
    + apply str_eqb_eq in E. subst n. rewrite SL in X. rewrite S1, S2 in X, LF.
      replace (b1 ++ l :: b2) with ((b1 ++ [l]) ++ b2) in R by (now rewrite <- app_assoc).
      destruct (IH ns _ _ (b1 ++ [l]) b2 rs body' L1' L2 NE' LF) as (b2' & A & ->); auto; [rewrite map_app, C1; cbn; now rewrite Lo|].
      exists (l :: b2'). split; [rewrite <- Lo; constructor; exact A|now rewrite <- app_assoc].
    + assert (D : o <> n) by (intros ->; rewrite str_eqb_refl in E; discriminate).
      match type of X with bind ?b _ = _ => destruct b as [r|] eqn:F; [|discriminate] end. cbn [bind] in X.
      destruct (extract_loop _ _ _ (combine os ns)) as [rs'|] eqn:X'; cbn [bind] in X; [|discriminate]. injection X as <-.
      cbn [map run_fixups] in R. destruct (fixup_of r (b1 ++ l :: b2)) as [body1|] eqn:R1; [|discriminate].
      assert (CX : rp_needle r = o /\ rp_replacement r = n /\ context_ok pn o os (rp_prev r)).
      { destruct (Nat.eqb (count_line o (po ++ o :: os)) 1) eqn:Q.
        - injection F as <-. split; [reflexivity|]. split; [reflexivity|]. left. reflexivity.
        - destruct (context_found _ _ _ _ _ _ _ _ L1 L2 F) as (ps & a & -> & Ep & CS). split; [reflexivity|]. split; [reflexivity|].
          right. exists ps, a. split; [reflexivity|]. split; [exact Ep|]. right. split; [|exact CS]. intros ->. destruct ns; [|discriminate].
          destruct (LF po o pn n eq_refl eq_refl) as [|N]; [contradiction|]. apply Nat.eqb_neq in Q. apply Q. apply count_line_once; auto. }
      destruct CX as (N1 & N2 & CX). unfold fixup_of in R1. rewrite N1, N2 in R1.
      assert (Nn : n <> []) by (intros ->; apply D; apply NE; now left).
      destruct (step_right b1 l b2 o n (rp_prev r) body1 Lo Nn OC) as (l' & ED & ->); [rewrite C1, C2; exact CX|exact R1|].
      rewrite SL in X'. rewrite S1, S2 in X', LF. replace (b1 ++ l' :: b2) with ((b1 ++ [l']) ++ b2) in R by (now rewrite <- app_assoc).
      destruct (IH ns _ _ (b1 ++ [l']) b2 rs' body' L1' L2 NE' LF) as (b2' & A & ->); auto.
      * rewrite map_app, C1. cbn. now rewrite (edited_content _ _ _ _ ED).
      * exists (l' :: b2'). split; [|now rewrite <- app_assoc]. constructor; [now rewrite Lo|now rewrite Lo|exact A].
Qed.
Theorem edit_sound body new rs body' : Forall one_char_parts body -> none_emptied (map l_content body) new -> last_line_fine (map l_content body) new ->
  extract_replacements (map l_content body) new = Ok rs -> run_fixups (map fixup_of rs) body = Ok body' -> edited_as body new body'.
Proof.
  intros OC NE LF X R. unfold extract_replacements in X. destruct (Nat.eqb _ _) eqn:L; [|discriminate]. cbn [negb] in X. apply Nat.eqb_eq in L.
  destruct (extract_right (map l_content body) new [] [] [] body rs body' eq_refl (eq_sym L) NE LF eq_refl eq_refl OC X R) as (b & A & ->). exact A.
Qed.
Lemma edited_as_text body new body' : edited_as body new body' -> map l_content body' = new.
Proof. induction 1 as [|l ls ts ls' _ IH|l t l' ls ts ls' _ E _ IH]; cbn; [reflexivity|now rewrite IH|]. now rewrite IH, (edited_content _ _ _ _ E). Qed.

Lemma step_clear b1 l b2 o n : l_content l = o -> n <> [] -> one_char_parts l -> ~ In o (map l_content b1) -> ~ In o (map l_content b2) ->
  exists l', edited o n l l' /\ replace_line_content o n None (b1 ++ l :: b2) = Ok (b1 ++ l' :: b2).
Proof.
  intros Lo N OC N1 N2. destruct (replaced_chars o n l OC Lo) as (l' & R & ED). exists l'. split; [exact ED|]. apply replace_spec. exists b1, l, b2, [l'].
  split; [reflexivity|]. split; [unfold new_lines; destruct n; [now destruct N|now rewrite R]|].
  split; [rewrite none_meant_spec; intros a x b E [-> _]; apply N1; rewrite E; apply in_or_app; right; now left|].
  split; [apply meantb_spec; rewrite Lo; split; auto|]. split; [|reflexivity].
  rewrite none_meant_spec; intros a x b E [-> _]; apply N2; rewrite E; apply in_or_app; right; now left.
Qed.
Lemma extract_clear : forall os ns po pn b1 b2, List.length ns = List.length os ->
  (forall o n, In (o, n) (combine os ns) -> o <> n -> n <> [] /\ ~ In o (pn ++ ns) /\ exists a b, po ++ os = a ++ o :: b /\ ~ In o a /\ ~ In o b) ->
  map l_content b1 = pn -> map l_content b2 = os -> Forall one_char_parts b2 ->
  exists rs b2', extract_loop (po ++ os) (pn ++ ns) (Z.of_nat (List.length pn)) (combine os ns) = Ok rs /\
    run_fixups (map fixup_of rs) (b1 ++ b2) = Ok (b1 ++ b2') /\ edited_as b2 ns b2'.
Proof.
  induction os as [|o os IH]; intros [|n ns] po pn b1 b2 L2 CE C1 C2 OC; try discriminate.
  - destruct b2; [|discriminate]. exists [], []. repeat split. constructor.
  - destruct b2 as [|l b2]; [discriminate|]. cbn [map] in C2. injection C2 as Lo C2. apply Forall_cons_iff in OC as [OC OC'].
    injection L2 as L2. cbn [combine extract_loop].
    assert (S1 : po ++ o :: os = (po ++ [o]) ++ os) by (now rewrite <- app_assoc). assert (S2 : pn ++ n :: ns = (pn ++ [n]) ++ ns) by (now rewrite <- app_assoc).
    assert (SL : Z.of_nat (List.length pn) + 1 = Z.of_nat (List.length (pn ++ [n]))) by (rewrite app_length; cbn; lia).
    assert (CE' := fun x y I => CE x y (or_intror I)). rewrite SL.
    destruct (str_eqb o n) eqn:E.
    + apply str_eqb_eq in E. subst n. rewrite S1, S2 in CE' |- *.
      destruct (IH ns _ _ (b1 ++ [l]) b2 L2 CE') as (rs & b2' & X & R & A); auto; [rewrite map_app, C1; cbn; now rewrite Lo|].
      rewrite <- !app_assoc in R. exists rs, (l :: b2'). split; [exact X|]. split; [exact R|]. rewrite <- Lo. now constructor.
    + assert (D : o <> n) by (intros ->; rewrite str_eqb_refl in E; discriminate).
      destruct (CE o n (or_introl eq_refl) D) as (Nn & NI & a & b & EQ & Na & Nb). rewrite S2 in NI.
      rewrite EQ, (count_line_once o a b Na Nb). cbn [Nat.eqb bind]. rewrite <- EQ.
      assert (N2 : ~ In o os).
      { destruct (split_two _ _ _ _ _ _ EQ) as [(_ & _ & ->)|[(m & -> & _)|(m & _ & ->)]]; [exact Nb| |].
        - intros _. apply Na. apply in_or_app. right. now left.
        - intros _. apply Nb. apply in_or_app. right. now left. }
      destruct (step_clear b1 l b2 o n Lo Nn OC) as (l' & ED & R1); [rewrite C1; intros I; apply NI; apply in_or_app; left; apply in_or_app; now left|now rewrite C2|].
      rewrite S1, S2 in CE' |- *.
      destruct (IH ns _ _ (b1 ++ [l']) b2 L2 CE') as (rs & b2' & X & R & A); auto; [rewrite map_app, C1; cbn; now rewrite (edited_content _ _ _ _ ED)|].
      rewrite X. cbn [bind]. eexists _, (l' :: b2'). split; [reflexivity|]. cbn [map run_fixups]. unfold fixup_of at 1. cbn [rp_needle rp_replacement rp_prev]. rewrite R1.
      rewrite <- !app_assoc in R. split; [exact R|]. constructor; [now rewrite Lo|now rewrite Lo|exact A].
Qed.
Theorem edit_complete body new : Forall one_char_parts body -> List.length new = List.length body -> clear_edit (map l_content body) new ->
  exists rs body', extract_replacements (map l_content body) new = Ok rs /\ run_fixups (map fixup_of rs) body = Ok body' /\ edited_as body new body'.
Proof.
  intros OC L CE. destruct (extract_clear (map l_content body) new [] [] [] body) as (rs & b & X & R & A); auto; [now rewrite map_length|].
  exists rs, b. split; [|split; [exact R|exact A]]. unfold extract_replacements. rewrite map_length, L, Nat.eqb_refl. exact X.
Qed.
Lemma context_error po pn i o n lens e : with_context po pn i o n lens = Err e -> e = ValueError.
Proof. induction lens as [|k lens IH]; cbn [with_context]; [now intros [= <-]|]. cbv zeta. destruct (Nat.eqb _ _); [discriminate|exact IH]. Qed.
Lemma extract_loop_error po pn l : forall i e, extract_loop po pn i l = Err e -> e = ValueError.
Proof.
  induction l as [|[o n] l IH]; intros i e H; cbn [extract_loop] in H; [discriminate|]. destruct (str_eqb o n); [exact (IH _ _ H)|].
  destruct (Nat.eqb _ _); cbn [bind] in H.
  - destruct (extract_loop _ _ _ l) eqn:X; cbn [bind] in H; [discriminate|]. injection H as <-. exact (IH _ _ X).
  - destruct (with_context _ _ _ _ _ _) eqn:W; cbn [bind] in H; [|injection H as <-; exact (context_error _ _ _ _ _ _ _ W)].
    destruct (extract_loop _ _ _ l) eqn:X; cbn [bind] in H; [discriminate|]. injection H as <-. exact (IH _ _ X).
Qed.
Theorem extract_errors original new e : extract_replacements original new = Err e -> e = ValueError.
Proof. unfold extract_replacements. destruct (negb _); [now intros [= <-]|]. apply extract_loop_error. Qed.
Lemma extract_none po pn l : forall i, Forall (fun p => fst p = snd p) l -> extract_loop po pn i l = Ok [].
Proof. induction l as [|[o n] l IH]; intros i F; [reflexivity|]. apply Forall_cons_iff in F as [F1 F]. cbn in F1. subst n. cbn [extract_loop]. rewrite str_eqb_refl. apply IH, F. Qed.
Theorem extract_unchanged l : extract_replacements l l = Ok [].
Proof. unfold extract_replacements. rewrite Nat.eqb_refl. cbn [negb]. apply extract_none. induction l; cbn; constructor; auto. Qed.

(** * The replacements that are kept *)
Lemma kept_none all id : ~ In id (map fst all) -> kept all id = [].
Proof.
  unfold kept. induction all as [|[k rs] all IH]; intros N; [reflexivity|]. cbn in *. destruct (str_eqb k id) eqn:E; [apply str_eqb_eq in E; tauto|]. apply IH. tauto.
Qed.
Lemma kept_save all id new id' : NoDup (map fst all) -> kept (save_replacements id new all) id' = kept all id' ++ (if str_eqb id id' then new else []).
Proof.
  induction all as [|[k rs] all IH]; intros ND; cbn [save_replacements].
  - unfold kept. cbn. destruct (str_eqb id id'); cbn; [now rewrite app_nil_r|reflexivity].
  - cbn [map fst] in ND. apply NoDup_cons_iff in ND as [NI ND]. destruct (str_eqb k id) eqn:E.
    + apply str_eqb_eq in E. subst k. pose proof (kept_none all id NI) as K. unfold kept in *. cbn [filter fst]. destruct (str_eqb id id') eqn:E2; cbn [map snd concat]; [|now rewrite app_nil_r].
      apply str_eqb_eq in E2. subst id'. rewrite K. now rewrite !app_nil_r.
    + unfold kept in *. cbn [filter fst]. destruct (str_eqb k id') eqn:E2; cbn [map snd concat]; [|apply IH, ND]. rewrite IH by exact ND. now rewrite app_assoc.
Qed.
Lemma save_keys id new all : NoDup (map fst all) -> NoDup (map fst (save_replacements id new all)).
Proof.
  induction all as [|[k rs] all IH]; intros ND; cbn [save_replacements map fst]; [constructor; [intros []|constructor]|].
  cbn [map fst] in ND. apply NoDup_cons_iff in ND as [NI ND]. destruct (str_eqb k id) eqn:E; cbn [map fst]; constructor; auto.
  intros I. apply NI. clear - I E. induction all as [|[k' rs'] all IH]; cbn in *; [destruct I as [->|[]]; rewrite str_eqb_refl in E; discriminate|].
  destruct (str_eqb k' id); cbn in *; [exact I|]. destruct I as [->|I]; [now left|right; auto].
Qed.
Lemma kept_fixups special all id : fixups_of (text_fixups special all) id = map snd (filter (fun e => str_eqb (fst e) id) special) ++ map fixup_of (kept all id).
Proof.
  unfold text_fixups. pose proof (fixups_of_history (special ++ flat_map (fun e => map (fun r => (fst e, fixup_of r)) (snd e)) all) [] id) as H. change (fixups_of [] id) with (@nil fixup) in H. rewrite app_nil_l in H. rewrite H. clear H. rewrite filter_app, map_app. f_equal. unfold kept. induction all as [|[k rs] all IH]; [reflexivity|].
  cbn [flat_map fst snd filter]. rewrite filter_app, map_app, IH. destruct (str_eqb k id) eqn:E; cbn [map snd concat].
  - rewrite map_app. f_equal. induction rs as [|r rs IHr]; [reflexivity|]. cbn [map filter fst]. rewrite E. cbn [map snd]. f_equal. exact IHr.
  - replace (filter _ (map _ rs)) with (@nil (pystr * fixup)); [reflexivity|]. induction rs as [|r rs IHr]; [reflexivity|]. cbn [map filter fst]. rewrite E. exact IHr.
Qed.
Lemma run_app f g : forall body, run_fixups (f ++ g) body = (b <- run_fixups f body ;; run_fixups g b).
Proof. induction f as [|x f IH]; intros body; [reflexivity|]. cbn [app run_fixups]. destruct (x body); [apply IH|reflexivity]. Qed.
Theorem saved_fixups special all id new body : NoDup (map fst all) ->
  do_all_fixups (text_fixups special (save_replacements id new all)) id body = (b <- do_all_fixups (text_fixups special all) id body ;; run_fixups (map fixup_of new) b) /\
  forall id', id' <> id -> do_all_fixups (text_fixups special (save_replacements id new all)) id' body = do_all_fixups (text_fixups special all) id' body.
Proof.
  intros ND. split; [|intros id' D]; rewrite !do_all_run, !kept_fixups, kept_save by exact ND.
  - rewrite str_eqb_refl, map_app, app_assoc, run_app. reflexivity.
  - destruct (str_eqb id id') eqn:E; [apply str_eqb_eq in E; congruence|]. now rewrite app_nil_r.
Qed.
Theorem session_grows special an raw session : forall all all' e, NoDup (map fst all) -> detect_errors_and_try_fix special an raw session all = (all', e) ->
  NoDup (map fst all') /\ (exists new, kept all' (lw_identifier raw) = kept all (lw_identifier raw) ++ new) /\ forall id, id <> lw_identifier raw -> kept all' id = kept all id.
Proof.
  induction session as [|ed session IH]; intros all all' e ND H; cbn [detect_errors_and_try_fix] in H.
  - assert (all' = all) as ->.
    { destruct (do_all_fixups _ _ _); [|congruence]. destruct (parses _ _ _); congruence. }
    split; [exact ND|]. split; [exists []; now rewrite app_nil_r|reflexivity].
  - destruct (do_all_fixups _ _ _) as [b|]; [|injection H as <- _; split; [exact ND|]; split; [exists []; now rewrite app_nil_r|reflexivity]].
    destruct (parses _ _ _); [injection H as <- _; split; [exact ND|]; split; [exists []; now rewrite app_nil_r|reflexivity]|].
    match type of H with match ?r with _ => _ end = _ => destruct r as [new|] end; [|injection H as <- _; split; [exact ND|]; split; [exists []; now rewrite app_nil_r|reflexivity]].
    destruct (IH _ _ _ (save_keys _ new _ ND) H) as (ND' & (more & K) & O). split; [exact ND'|]. split.
    + exists (new ++ more). rewrite K, kept_save, str_eqb_refl by exact ND. now rewrite app_assoc.
    + intros id D. rewrite (O id D), kept_save by exact ND. destruct (str_eqb _ id) eqn:E; [apply str_eqb_eq in E; congruence|]. now rewrite app_nil_r.
Qed.

(** * The text in the editor *)
Lemma drop_spaces a s : Forall (fun c => isspace_chr c = true) a -> drop_while isspace_chr (a ++ s) = drop_while isspace_chr s.
Proof. induction 1 as [|c a H _ IH]; [reflexivity|]. cbn [app drop_while]. now rewrite H. Qed.
Lemma drop_cases s : Forall (fun c => isspace_chr c = true) s \/ forall b, drop_while isspace_chr (s ++ b) = drop_while isspace_chr s ++ b.
Proof. induction s as [|c s IH]; [left; constructor|]. cbn [app drop_while]. destruct (isspace_chr c) eqn:E; [destruct IH as [IH|IH]; [left; constructor; auto|right; exact IH]|right; reflexivity]. Qed.
Lemma drop_all a : Forall (fun c => isspace_chr c = true) a -> drop_while isspace_chr a = [].
Proof. intros F. pose proof (drop_spaces a [] F) as H. now rewrite app_nil_r in H. Qed.
Lemma strip_between a s b : Forall (fun c => isspace_chr c = true) a -> Forall (fun c => isspace_chr c = true) b -> str_strip (a ++ s ++ b) = str_strip s.
Proof.
  intros A B. unfold str_strip, str_lstrip. rewrite drop_spaces by exact A. destruct (drop_cases s) as [S|S].
  - rewrite drop_spaces by exact S. now rewrite (drop_all b B), (drop_all s S).
  - rewrite S, rev_app_distr, drop_spaces; [reflexivity|]. apply Forall_forall. intros x I. rewrite Forall_forall in B. apply B, in_rev, I.
Qed.
Lemma file_lines_at s : forall current r, on_one_line s -> file_lines current (s ++ 10%N :: r) = (current ++ s ++ [10%N]) :: file_lines [] r.
Proof.
  induction s as [|c s IH]; intros current r [N1 N2]; cbn [app file_lines]; [reflexivity|]. destruct (c =? 10)%N eqn:E1; [apply N.eqb_eq in E1; subst; destruct N1; now left|].
  destruct (c =? 13)%N eqn:E2; [apply N.eqb_eq in E2; subst; destruct N2; now left|].
  rewrite IH by (split; intros I; [apply N1|apply N2]; now right). rewrite <- app_assoc. reflexivity.
Qed.
Theorem read_lines lines : Forall (fun p => List.length (fst p) = 5%nat /\ on_one_line (fst p) /\ on_one_line (snd p)) lines ->
  read_edited (concat (map (fun p => fst p ++ snd p ++ [10%N]) lines)) = map (fun p => str_strip (snd p)) lines.
Proof.
  unfold read_edited. induction 1 as [|[p t] lines (L & [P1 P2] & [T1 T2]) _ IH]; [reflexivity|]. cbn [map concat fst snd] in *.
  replace ((p ++ t ++ [10%N]) ++ concat (map (fun p => fst p ++ snd p ++ [10%N]) lines)) with ((p ++ t) ++ 10%N :: concat (map (fun p => fst p ++ snd p ++ [10%N]) lines)) by (now rewrite <- !app_assoc).
  rewrite file_lines_at by (split; rewrite in_app_iff; tauto). cbn [app map]. rewrite IH. f_equal. rewrite <- app_assoc, <- L, skipn_app, skipn_all, Nat.sub_diag. cbn [skipn app].
  apply (strip_between [] t [10%N]); [constructor|repeat constructor].
Qed.
Lemma short_level q : -1000 < q < 10000 -> (List.length (str_of_int q) <= 4)%nat.
Proof.
  intros H. assert (A : forallb (fun n => Nat.leb (List.length (str_of_int (Z.of_nat n - 999))) 4) (seq 0 (Z.to_nat 10999)) = true) by (vm_compute; reflexivity).
  rewrite forallb_forall in A. specialize (A (Z.to_nat (q + 999))). rewrite in_seq in A. replace (Z.of_nat (Z.to_nat (q + 999)) - 999) with q in A by lia. apply Nat.leb_le, A. lia.
Qed.
Lemma level_text q : on_one_line (str_of_int q).
Proof.
  unfold str_of_int. assert (D : forall n c, In c (dec_N n) -> (48 <= c <= 57)%N). { intros n c I. pose proof (dec_N_digits n) as H. unfold ascii_digits in H. rewrite Forall_forall in H. apply H in I. lia. }
  destruct (q <? 0); split; try (intros [E|I]; [discriminate|]; apply D in I; lia); intros I; apply D in I; lia.
Qed.
Lemma spaces_in n c : In c (spaces n) -> c = 32%N.
Proof. unfold spaces. intros I. now apply repeat_spec in I. Qed.
Lemma spaces_line n : on_one_line (spaces n).
Proof. split; intros I; apply spaces_in in I; discriminate. Qed.
Lemma spaces_space n : Forall (fun c => isspace_chr c = true) (spaces n).
Proof. apply Forall_forall. intros c I. apply spaces_in in I. now subst. Qed.
Lemma on_line_app a b : on_one_line a -> on_one_line b -> on_one_line (a ++ b).
Proof. intros [A1 A2] [B1 B2]. split; rewrite in_app_iff; tauto. Qed.
Lemma edit_line_form q l s : -1000 < q < 10000 -> on_one_line (l_content l) -> edit_line q l = Ok s ->
  exists p k, List.length p = 5%nat /\ on_one_line p /\ s = p ++ (spaces k ++ l_content l) ++ [10%N] /\ str_strip (l_content l) = l_content l.
Proof.
  intros Q O H. unfold edit_line in H. destruct (str_eqb _ _) eqn:E; cbn [assert_ bind] in H; [|discriminate]. apply str_eqb_eq in E.
  destruct (f_int _) as [n|] eqn:F; cbn [bind] in H; [|discriminate]. injection H as <-. pose proof (short_level q Q) as SL.
  exists (pad_left 4 (str_of_int q) ++ u8 " "), (S (Z.to_nat n)). split; [|split; [|split; [|exact E]]].
  - unfold pad_left. rewrite !app_length. unfold spaces. rewrite repeat_length. cbn [List.length]. change (List.length (u8 " ")) with 1%nat. lia.
  - apply on_line_app; [apply on_line_app; [apply spaces_line|apply level_text]|]. split; intros [X|[]]; discriminate.
  - rewrite <- !app_assoc. f_equal. f_equal. rewrite !app_assoc. f_equal. f_equal. change (S (Z.to_nat n)) with (1 + Z.to_nat n)%nat. rewrite Nat.add_comm. unfold spaces. rewrite repeat_app, <- !app_assoc. reflexivity.
Qed.
Lemma edit_lines_form : forall body q ss, Forall (fun l => on_one_line (l_content l)) body -> (forall n x, level_at q body n = Some x -> -1000 < x < 10000) ->
  mapM (fun p => edit_line (fst p) (snd p)) (g_items (quote_level_loop false q body)) = Ok ss ->
  exists lines, concat ss = concat (map (fun p => fst p ++ snd p ++ [10%N]) lines) /\
    Forall (fun p => List.length (fst p) = 5%nat /\ on_one_line (fst p) /\ on_one_line (snd p)) lines /\ map (fun p => str_strip (snd p)) lines = map l_content body.
Proof.
  induction body as [|l body IH]; intros q ss O LV H; cbn [quote_level_loop andb] in H.
  - cbn in H. injection H as <-. exists []. repeat split. constructor.
  - cbn [g_items mapM fst snd] in H. apply Forall_cons_iff in O as [O1 O2]. destruct (edit_line q l) as [s|] eqn:E; cbn [bind] in H; [|discriminate].
    destruct (mapM _ _) as [ss'|] eqn:M; cbn [bind] in H; [|discriminate]. injection H as <-.
    destruct (edit_line_form q l s (LV O q eq_refl) O1 E) as (p & k & L & P & -> & ST).
    destruct (IH _ _ O2 (fun n x X => LV (S n) x X) M) as (lines & C & F & R).
    exists ((p, spaces k ++ l_content l) :: lines). cbn [map concat fst snd]. rewrite C. split; [reflexivity|]. split.
    + constructor; [|exact F]. cbn [fst snd]. split; [exact L|]. split; [exact P|]. apply on_line_app; [apply spaces_line|exact O1].
    + f_equal; [|exact R]. pose proof (strip_between (spaces k) (l_content l) [] (spaces_space k) (Forall_nil _)) as B. rewrite app_nil_r in B. now rewrite B.
Qed.
Theorem unedited body s : Forall (fun l => on_one_line (l_content l)) body -> (forall n q, level_at 0 body n = Some q -> -1000 < q < 10000) ->
  edit_text body = Ok s -> read_edited s = map l_content body.
Proof.
  intros O LV H. unfold edit_text in H. destruct (mapM _ _) as [ss|] eqn:M; cbn [bind] in H; [|discriminate]. injection H as <-.
  destruct (edit_lines_form body 0 ss O LV M) as (lines & -> & F & <-). apply read_lines, F.
Qed.
Lemma first_neg_spec : forall body q n, match first_negative n (g_items (quote_level_loop false q body)) with
  | Some m => exists k x, m = n + Z.of_nat k /\ level_at q body k = Some x /\ x < 0 /\ forall j y, (j < k)%nat -> level_at q body j = Some y -> 0 <= y
  | None => forall j y, level_at q body j = Some y -> 0 <= y end.
Proof.
  induction body as [|l body IH]; intros q n; cbn [quote_level_loop andb g_items first_negative]; [intros [|j] y E; discriminate|].
  destruct (q <? 0) eqn:Q.
  - exists O, q. split; [lia|]. split; [reflexivity|]. split; [lia|]. intros j y J. lia.
  - specialize (IH (q + quote_level_diff (l_content l)) (n + 1)). destruct (first_negative _ _) as [m|].
    + destruct IH as (k & x & -> & L & X & B). exists (S k), x. split; [lia|]. split; [exact L|]. split; [exact X|]. intros [|j] y J E; cbn [level_at] in E; [injection E as <-; lia|]. apply (B j); [lia|exact E].
    + intros [|j] y E; cbn [level_at] in E; [injection E as <-; lia|]. exact (IH j y E).
Qed.
Lemma last_zero_spec : forall body q n f, match last_zero n (g_items (quote_level_loop false q body)) f with
  | r => (exists k, r = Some (n + Z.of_nat k) /\ level_at q body k = Some 0 /\ forall j y, (k < j)%nat -> level_at q body j = Some y -> y <> 0) \/
         (r = f /\ forall j y, level_at q body j = Some y -> y <> 0) end.
Proof.
  induction body as [|l body IH]; intros q n f; cbn [quote_level_loop andb g_items last_zero]; [right; split; [reflexivity|]; intros [|j] y E; discriminate|].
  destruct (IH (q + quote_level_diff (l_content l)) (n + 1) (if q =? 0 then Some n else f)) as [(k & E & L & B)|[E B]].
  - left. exists (S k). split; [rewrite E; f_equal; lia|]. split; [exact L|]. intros [|j] y J X; [lia|]. apply (B j); [lia|exact X].
  - destruct (q =? 0) eqn:Q.
    + left. exists O. split; [rewrite E; f_equal; lia|]. split; [cbn [level_at]; f_equal; lia|]. intros [|j] y J X; [lia|]. exact (B j y X).
    + right. split; [exact E|]. intros [|j] y X; cbn [level_at] in X; [injection X as <-; lia|]. exact (B j y X).
Qed.
Theorem opened_at body : body <> [] -> exists n q, open_at_line body = Z.of_nat n /\ level_at 0 body n = Some q /\
  (q < 0 /\ (forall j y, (j < n)%nat -> level_at 0 body j = Some y -> 0 <= y) \/
   q = 0 /\ forall j y, level_at 0 body j = Some y -> 0 <= y /\ ((n < j)%nat -> y <> 0)).
Proof.
  intros NE. unfold open_at_line, iterate_with_quote_level. cbv zeta. pose proof (first_neg_spec body 0 0) as F. destruct (first_negative _ _) as [m|].
  - destruct F as (k & x & -> & L & X & B). exists k, x. split; [lia|]. split; [exact L|]. left. auto.
  - pose proof (last_zero_spec body 0 0 None) as Z. cbv zeta in Z. destruct Z as [(k & E & L & B)|[E B]].
    + rewrite E. exists k, 0. split; [lia|]. split; [exact L|]. right. split; [reflexivity|]. intros j y X. split; [exact (F j y X)|]. intros J. exact (B j y J X).
    + destruct body as [|l body]; [now destruct NE|]. destruct (B O 0 eq_refl eq_refl).
Qed.
