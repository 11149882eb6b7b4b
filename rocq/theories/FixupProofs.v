From Coq Require Import Lia.
From Coq Require Import ZifyBool ZifyNat ZifyN.
From Verif Require Import PyBase PyBaseFacts IdModel LineModel FixupModel LineSpec FixupSpec LineProofs.
Local Open Scope Z_scope.

Lemma exactly_one_ok n : exactly_one n = Ok tt <-> n = 1%nat.
Proof. destruct n as [|[|n]]; cbn; split; intros; congruence. Qed.
Lemma exactly_one_err n e : exactly_one n = Err e -> e = ValueError.
Proof. destruct n as [|[|n]]; cbn; congruence. Qed.

(** * C15 *)
Definition none_has (needle : pystr) (ls : list line) : Prop := Forall (fun l => l_content l <> needle) ls.

Lemma delete_loop_none needle ls : none_has needle ls -> delete_loop needle ls = (ls, O).
Proof.
  induction 1 as [|l ls Hl _ IH]; [reflexivity|]. cbn. rewrite IH.
  apply str_eqb_neq in Hl. now rewrite Hl.
Qed.
Lemma delete_loop_app needle a b : none_has needle a ->
  delete_loop needle (a ++ b) = (a ++ fst (delete_loop needle b), snd (delete_loop needle b)).
Proof.
  induction 1 as [|l ls Hl _ IH]; cbn [app delete_loop]; [now destruct (delete_loop _ b)|].
  rewrite IH. apply str_eqb_neq in Hl. now rewrite Hl.
Qed.
Lemma empty_loop_none needle ls : none_has needle ls -> empty_line_loop needle ls = (ls, O).
Proof.
  induction 1 as [|l ls Hl _ IH]; [reflexivity|]. cbn. rewrite IH.
  apply str_eqb_neq in Hl. now rewrite Hl.
Qed.
Lemma empty_loop_app needle a b : none_has needle a ->
  empty_line_loop needle (a ++ b) = (a ++ fst (empty_line_loop needle b), snd (empty_line_loop needle b)).
Proof.
  induction 1 as [|l ls Hl _ IH]; cbn [app empty_line_loop]; [now destruct (empty_line_loop _ b)|].
  rewrite IH. apply str_eqb_neq in Hl. now rewrite Hl.
Qed.

(* the first line with the text, if any *)
Lemma first_has needle ls : none_has needle ls \/
  exists a l b, ls = a ++ l :: b /\ none_has needle a /\ l_content l = needle.
Proof.
  induction ls as [|l ls IH]; [left; constructor|].
  destruct (str_eqb (l_content l) needle) eqn:E.
  - apply str_eqb_eq in E. right. exists [], l, ls. repeat split; auto. constructor.
  - apply str_eqb_neq in E. destruct IH as [IH|(a & x & b & -> & Ha & Hx)].
    + left. now constructor.
    + right. exists (l :: a), x, b. repeat split; auto. now constructor.
Qed.

Lemma delete_spec needle body r :
  delete_line needle body = Ok r <->
  exists before l after, body = before ++ l :: after /\ l_content l = needle /\
    none_has needle before /\ none_has needle after /\ r = before ++ after.
Proof.
  unfold delete_line. destruct (first_has needle body) as [H|(a & l & b & -> & Ha & Hl)].
  - rewrite delete_loop_none by exact H. cbn. split; [discriminate|].
    intros (x & l & y & -> & Hl & _). apply Forall_app in H as [_ H]. now inversion H.
  - rewrite delete_loop_app by exact Ha. cbn [delete_loop].
    assert (E : str_eqb (l_content l) needle = true) by now apply str_eqb_eq. rewrite E.
    destruct (first_has needle b) as [H|(a2 & l2 & b2 & -> & Ha2 & Hl2)].
    + rewrite delete_loop_none by exact H. cbn. split.
      * intros [= <-]. exists a, l, b. auto.
      * intros (x & l' & y & E2 & Hl' & Hx & Hy & ->). f_equal.
        clear E. revert x E2 Hx. induction a as [|q a IHa]; intros [|q' x] E2 Hx; cbn in E2; injection E2 as E0 E2; subst.
        -- reflexivity.
        -- inversion Hx; subst. congruence.
        -- inversion Ha; subst. congruence.
        -- cbn. f_equal. inversion Ha; subst. inversion Hx; subst. eauto.
    + rewrite delete_loop_app by exact Ha2. cbn [delete_loop].
      assert (E2 : str_eqb (l_content l2) needle = true) by now apply str_eqb_eq. rewrite E2.
      destruct (delete_loop needle b2) as [rr n]. cbn. split; [discriminate|].
      intros (x & l' & y & E3 & Hl' & Hx & Hy & _). exfalso.
      assert (C : (List.length (List.filter (fun l => str_eqb (l_content l) needle) (a ++ l :: a2 ++ l2 :: b2)) >= 2)%nat).
      { rewrite filter_app. cbn [List.filter]. rewrite E, filter_app. cbn [List.filter]. rewrite E2.
        rewrite app_length. cbn. rewrite app_length. cbn. lia. }
      rewrite E3, filter_app in C. cbn [List.filter] in C.
      assert (F : forall ls, none_has needle ls -> List.filter (fun l => str_eqb (l_content l) needle) ls = []).
      { clear. intros ls H. induction H as [|l0 ls H _ IH]; [reflexivity|]. cbn. apply str_eqb_neq in H. now rewrite H. }
      rewrite (F x Hx), (F y Hy) in C. destruct (str_eqb (l_content l') needle); cbn in C; lia.
Qed.
Lemma delete_err needle body e : delete_line needle body = Err e -> e = ValueError.
Proof.
  unfold delete_line. destruct (delete_loop needle body) as [r n].
  destruct (exactly_one n) eqn:E; cbn; [discriminate|]. intros [= <-]. now apply exactly_one_err in E.
Qed.

Lemma empty_delete_count needle ls : snd (empty_line_loop needle ls) = snd (delete_loop needle ls).
Proof.
  induction ls as [|l ls IH]; [reflexivity|]. cbn. destruct (empty_line_loop _ ls), (delete_loop _ ls). cbn in IH. subst.
  now destruct (str_eqb _ _).
Qed.
Lemma add_empty_spec needle body r :
  add_empty_line_after needle body = Ok r <->
  exists before l after, body = before ++ l :: after /\ l_content l = needle /\
    none_has needle before /\ none_has needle after /\ r = before ++ l :: EMPTY_LINE :: after.
Proof.
  assert (K : forall before l after, l_content l = needle -> none_has needle before -> none_has needle after ->
    empty_line_loop needle (before ++ l :: after) = (before ++ l :: EMPTY_LINE :: after, 1%nat)).
  { intros x l y Hl Hx Hy. rewrite empty_loop_app by exact Hx. cbn [empty_line_loop].
    rewrite empty_loop_none by exact Hy. apply str_eqb_eq in Hl. now rewrite Hl. }
  unfold add_empty_line_after. split.
  - destruct (empty_line_loop needle body) as [rr n] eqn:E. intros H.
    assert (Hn : n = 1%nat) by (destruct n as [|[|n]]; cbn in H; congruence). subst n. cbn in H. injection H as ->.
    assert (D : exists d, delete_line needle body = Ok d).
    { unfold delete_line. pose proof (empty_delete_count needle body) as C. rewrite E in C. cbn in C.
      destruct (delete_loop needle body) as [d n]. cbn in C. subst n. now exists d. }
    destruct D as (d & D). apply delete_spec in D as (x & l & y & -> & Hl & Hx & Hy & _).
    rewrite K in E by assumption. injection E as <-. exists x, l, y. auto.
  - intros (x & l & y & -> & Hl & Hx & Hy & ->). now rewrite K by assumption.
Qed.
Lemma add_empty_err needle body e : add_empty_line_after needle body = Err e -> e = ValueError.
Proof.
  unfold add_empty_line_after. destruct (empty_line_loop needle body) as [r n].
  destruct (exactly_one n) eqn:E; cbn; [discriminate|]. intros [= <-]. now apply exactly_one_err in E.
Qed.

(** * C17 *)
Definition registered (history : list (pystr * fixup)) : registry :=
  fold_left (fun r e => add_fixup (fst e) (snd e) r) history [].
Definition fixups_of (all : registry) (id : pystr) : list fixup :=
  match find (fun e => str_eqb (fst e) id) all with None => [] | Some (_, fs) => fs end.

Lemma fixups_of_add all id cb id' :
  fixups_of (add_fixup id cb all) id' = fixups_of all id' ++ (if str_eqb id id' then [cb] else []).
Proof.
  unfold fixups_of. induction all as [|[k fs] all IH]; cbn [add_fixup find fst].
  - destruct (str_eqb id id') eqn:E; reflexivity.
  - destruct (str_eqb k id) eqn:E; cbn [find fst].
    + apply str_eqb_eq in E. subst k. destruct (str_eqb id id') eqn:E2; [reflexivity|].
      now rewrite app_nil_r.
    + destruct (str_eqb k id') eqn:E2; [|exact IH].
      destruct (str_eqb id id') eqn:E3; [|now rewrite app_nil_r].
      apply str_eqb_eq in E2, E3. apply str_eqb_neq in E. congruence.
Qed.
Lemma fixups_of_history history : forall all id,
  fixups_of (fold_left (fun r e => add_fixup (fst e) (snd e) r) history all) id =
  fixups_of all id ++ map snd (List.filter (fun e => str_eqb (fst e) id) history).
Proof.
  induction history as [|[k cb] h IH]; intros all id; cbn [fold_left List.filter fst snd map]; [now rewrite app_nil_r|].
  rewrite IH, fixups_of_add, <- app_assoc. f_equal. now destruct (str_eqb k id).
Qed.

Lemma run_applied fs : forall body, applied fs body (run_fixups fs body).
Proof.
  induction fs as [|f fs IH]; intros body; cbn; [constructor|].
  destruct (f body) eqn:E; [eapply applied_step; eauto|eapply applied_fail; eauto].
Qed.
Lemma do_all_run all id body : do_all_fixups all id body = run_fixups (fixups_of all id) body.
Proof.
  unfold do_all_fixups, fixups_of. destruct (find _ all) as [[k fs]|]; reflexivity.
Qed.
Lemma do_all_applied history id body :
  applied (map snd (List.filter (fun e => str_eqb (fst e) id) history)) body
          (do_all_fixups (registered history) id body).
Proof.
  rewrite do_all_run. unfold registered. rewrite fixups_of_history. apply run_applied.
Qed.

(** * C16 *)
Lemma common_prefix_spec a : forall b,
  firstn (common_prefix_len a b) a = firstn (common_prefix_len a b) b /\
  (common_prefix_len a b <= List.length a)%nat /\ (common_prefix_len a b <= List.length b)%nat /\
  (forall c t t', skipn (common_prefix_len a b) a = c :: t -> skipn (common_prefix_len a b) b <> c :: t').
Proof.
  induction a as [|x a IH]; intros [|y b]; cbn [common_prefix_len].
  - cbn. repeat split; auto; congruence.
  - cbn. repeat split; auto; try lia. congruence.
  - cbn. repeat split; auto; try lia. congruence.
  - destruct (N.eqb_spec x y) as [->|Hxy].
    + destruct (IH b) as (H1 & H2 & H3 & H4). cbn [firstn skipn List.length]. repeat split; try lia; [now f_equal|exact H4].
    + cbn. repeat split; try lia. intros c t t' [= <- <-]. congruence.
Qed.

Lemma cut_exists needle replacement :
  let pre := common_prefix_len needle replacement in
  let post := common_postfix_len needle replacement in
  exists start mid mid' end_, cut needle replacement start mid mid' end_ /\
    List.length start = pre /\ List.length end_ = post.
Proof.
  cbv zeta. unfold common_postfix_len. set (pre := common_prefix_len needle replacement).
  destruct (common_prefix_spec needle replacement) as (H1 & H2 & H3 & H4). fold pre in H1, H2, H3, H4.
  set (a := skipn pre needle) in *. set (b := skipn pre replacement) in *.
  destruct (common_prefix_spec (rev a) (rev b)) as (K1 & K2 & K3 & K4).
  set (post := common_prefix_len (rev a) (rev b)) in *.
  assert (Ea : a = rev (skipn post (rev a)) ++ rev (firstn post (rev a))).
  { rewrite <- rev_app_distr, firstn_skipn. now rewrite rev_involutive. }
  assert (Eb : b = rev (skipn post (rev b)) ++ rev (firstn post (rev a))).
  { rewrite K1, <- rev_app_distr, firstn_skipn. now rewrite rev_involutive. }
  exists (firstn pre needle), (rev (skipn post (rev a))), (rev (skipn post (rev b))), (rev (firstn post (rev a))).
  split; [|split].
  - split; [|split; [|split]].
    + rewrite <- Ea. unfold a. now rewrite firstn_skipn.
    + rewrite <- Eb, H1. unfold b. now rewrite firstn_skipn.
    + intros c t t' Hm Hm'. rewrite Hm in Ea. rewrite Hm' in Eb.
      eapply H4; [exact Ea|exact Eb].
    + intros c t t' Hm Hm'. apply (f_equal (@rev N)) in Hm, Hm'. rewrite rev_involutive, rev_app_distr in Hm, Hm'.
      cbn [rev app] in Hm, Hm'. exact (K4 c (rev t) (rev t') Hm Hm').
  - rewrite firstn_length. lia.
  - rewrite rev_length, firstn_length. lia.
Qed.

Lemma char_contents ps : Forall (fun p => List.length (p_content p) = 1%nat) ps ->
  map p_content ps = map (fun c => [c]) (flat_map p_content ps).
Proof.
  induction 1 as [|p ps Hp _ IH]; [reflexivity|]. cbn. destruct (p_content p) as [|c [|d t]]; cbn in Hp; try lia.
  cbn. now rewrite IH.
Qed.
Lemma char_count l : one_char_parts l -> List.length (l_parts l) = List.length (l_content l).
Proof.
  intros H. apply char_contents in H. apply (f_equal (@List.length pystr)) in H. now rewrite !map_length in H.
Qed.
Lemma positions_length l : List.length (positions l) = List.length (l_parts l).
Proof. apply running_length. Qed.

Lemma substring_length (s : pystr) a b : 0 <= a <= b -> b <= Z.of_nat (List.length s) ->
  List.length (substring s a b) = Z.to_nat (b - a).
Proof. intros H1 H2. unfold substring. rewrite firstn_length, skipn_length. lia. Qed.

(* slicing a line of one-character parts *)
Lemma slice_chars l s e :
  one_char_parts l ->
  let n := Z.of_nat (List.length (l_content l)) in
  let start := from_end n s in
  let end_ := from_end n (the_end l e) in
  0 <= start <= end_ -> end_ <= n ->
  exists r, l_slice l s e = Ok r /\
    map p_content (l_parts r) = map (fun c => [c]) (substring (l_content l) start end_) /\
    Forall2 same_float (positions r)
      (firstn (Z.to_nat (end_ - start)) (skipn (Z.to_nat start) (positions l))).
Proof.
  intros Hc n start end_ H1 H2.
  destruct (slice_char_ok l s e Hc) as (r & E & Hr & Ec); try (fold n; fold start; fold end_; lia).
  fold n in Ec. fold start end_ in Ec. exists r. split; [exact E|]. split.
  - rewrite (char_contents _ Hr). now rewrite <- Ec.
  - assert (Hlen : List.length (l_parts r) = Z.to_nat (end_ - start)).
    { rewrite (char_count r Hr), Ec. apply substring_length; lia. }
    destruct (l_parts r) as [|p ps] eqn:Ep.
    + unfold positions at 1. rewrite Ep. cbn. cbn in Hlen. rewrite <- Hlen. constructor.
    + destruct (slice_positions l s e r E) as (before & kept & after & El & Hk & _ & Hb & Hp).
      { intros ->. discriminate. }
      fold n in Hb. fold start in Hb.
      assert (Lb : List.length before = Z.to_nat start).
      { rewrite <- Hb. unfold one_char_parts in Hc. rewrite El in Hc. apply Forall_app in Hc as [Hcb _].
        apply char_text_len in Hcb. unfold text_len in Hcb. lia. }
      assert (Lk : List.length kept = Z.to_nat (end_ - start)).
      { apply (f_equal (@List.length pystr)) in Hk. rewrite !map_length in Hk. rewrite <- Hk, Ep. exact Hlen. }
      rewrite Lb, Lk in Hp. exact Hp.
Qed.

Lemma slice_chars' l s e a b :
  one_char_parts l ->
  from_end (Z.of_nat (List.length (l_content l))) s = a ->
  from_end (Z.of_nat (List.length (l_content l))) (the_end l e) = b ->
  0 <= a <= b -> b <= Z.of_nat (List.length (l_content l)) ->
  exists r, l_slice l s e = Ok r /\
    map p_content (l_parts r) = map (fun c => [c]) (substring (l_content l) a b) /\
    Forall2 same_float (positions r)
      (firstn (Z.to_nat (b - a)) (skipn (Z.to_nat a) (positions l))).
Proof. intros H <- <- H1 H2. now apply slice_chars. Qed.
Lemma from_end_nonneg n z : 0 <= z -> from_end n z = z.
Proof. intros H. unfold from_end. destruct (Z.ltb_spec z 0); lia. Qed.
Lemma from_end_neg n z : z < 0 -> from_end n z = n + z.
Proof. intros H. unfold from_end. destruct (Z.ltb_spec z 0); lia. Qed.

Lemma f_add_zero_r x : same_float (f_add x f_zero) x.
Proof. rewrite f_add_comm. apply f_add_zero_l. Qed.

Lemma slice_tail_margin l s r : one_char_parts l -> l_slice l s None = Ok r ->
  let n := Z.of_nat (List.length (l_content l)) in
  0 <= from_end n s < n -> same_float (l_margin_right r) (l_margin_right l).
Proof.
  intros Hc E n Hs. pose proof (slice_cases l s None) as SC. cbv zeta in SC. cbn [the_end] in SC. fold n in SC.
  replace (from_end n n) with n in SC by (unfold from_end; destruct (Z.ltb_spec n 0); lia).
  destruct SC as [(_ & _ & E')|[(_ & Hle & _)|(Hlt & a & b & Ep & C)]].
  - rewrite E in E'. injection E' as ->. constructor.
  - lia.
  - unfold one_char_parts in Hc. rewrite Ep in Hc. apply Forall_app in Hc as [Hca Hcb].
    assert (En : n = text_len a + text_len b).
    { unfold n, l_content. rewrite Ep, <- text_len_app. reflexivity. }
    destruct C as [(-> & Hs' & E' & Ha)|[(-> & Hs' & E')|[(Hb & Hs' & E' & Ha)|[(Hs' & p & k & c & -> & Hl & E')|(Hs' & Hb & E' & _)]]]];
      rewrite E in E'; try discriminate.
    + exfalso. rewrite text_len_nil in En. destruct Ha as [->|(a' & p & -> & Ha)]; [rewrite text_len_nil in En; lia|].
      apply Forall_app in Hca as [_ Hcp]. inversion Hcp; subst.
      rewrite text_len_app, text_len_cons in En. change (text_len []) with 0 in En. lia.
    + exfalso. rewrite text_len_nil in En. lia.
    + injection E' as ->. cbn [l_margin_right].
      rewrite text_len_app in En. assert (Hc0 : text_len c = 0) by lia.
      apply Forall_app in Hcb as [_ Hcc]. rewrite char_text_len in Hc0 by exact Hcc.
      destruct c; [|cbn in Hc0; lia]. apply f_add_zero_r.
Qed.

Lemma indent_position l : same_float (l_indent l) (nth 0 (positions l) f_zero).
Proof.
  unfold l_indent, positions. destruct (l_parts l); cbn; [constructor|]. apply same_float_sym, f_add_zero_l.
Qed.

Lemma Forall2_nth_same a b i : Forall2 same_float a b -> same_float (nth i a f_zero) (nth i b f_zero).
Proof.
  intros H. revert i. induction H; intros [|i]; cbn; auto; constructor.
Qed.
Lemma nth_skipn0 {A} (l : list A) k d : nth 0 (skipn k l) d = nth k l d.
Proof. revert k. induction l as [|x l IH]; intros [|k]; cbn; auto. Qed.

Lemma from_multiple_exact l ls :
  exact_positions l ->
  (forall x, In x (flat_map positions ls) -> exists y, In y (f_zero :: positions l) /\ same_float x y) ->
  Forall2 same_float (positions (l_from_multiple ls)) (flat_map positions ls).
Proof.
  intros He Hin. apply from_multiple_positions. apply undoable_all.
  intros x y Hx Hy.
  assert (Hx' : exists x', In x' (f_zero :: positions l) /\ same_float x x').
  { destruct Hx as [Hx| ->]; [now apply Hin|]. exists f_zero. split; [now left|constructor]. }
  assert (Hy' : exists y', In y' (f_zero :: positions l) /\ same_float y y').
  { apply in_map_iff in Hy as (o & <- & Ho). pose proof (indent_position o) as Hi.
    unfold positions in Hi. destruct (l_parts o) as [|p ps] eqn:Ep.
    - exists f_zero. split; [now left|]. unfold l_indent. rewrite Ep. constructor.
    - destruct (Hin (f_add f_zero (p_dx p))) as (y' & H1 & H2).
      + apply in_flat_map. exists o. split; [exact Ho|]. unfold positions. rewrite Ep. now left.
      + exists y'. split; [exact H1|]. eapply same_float_trans; [exact Hi|]. exact H2. }
  destruct Hx' as (x' & Hx1 & Hx2), Hy' as (y' & Hy1 & Hy2).
  assert (S : same_float (f_sub y x) (f_sub y' x')).
  { eapply same_float_trans; [apply f_sub_same; exact Hx2|].
    destruct Hy2 as [z|s t]; [constructor|]. destruct x' as [sx|sx| |sx mx ex]; cbn; try constructor.
    destruct s, t, sx; constructor. }
  eapply same_float_trans; [apply f_add_same2; [exact Hx2|exact S]|].
  eapply same_float_trans; [now apply He|]. now apply same_float_sym.
Qed.

Lemma Forall2_same_trans a b c : Forall2 same_float a b -> Forall2 same_float b c -> Forall2 same_float a c.
Proof.
  intros H. revert c. induction H; intros c Hc; inversion Hc; subst; constructor; eauto using same_float_trans.
Qed.

Lemma Forall2_same_In a b x : Forall2 same_float a b -> In x a -> exists y, In y b /\ same_float x y.
Proof.
  induction 1 as [|u v a b Huv _ IH]; intros Hi; [destruct Hi|]. destruct Hi as [->|Hi].
  - exists v. split; [now left|exact Huv].
  - destruct (IH Hi) as (y & H1 & H2). exists y. split; [now right|exact H2].
Qed.

Lemma from_multiple_contents ls :
  map p_content (l_parts (l_from_multiple ls)) = flat_map (fun l => map p_content (l_parts l)) ls.
Proof.
  unfold l_from_multiple. cbn [l_parts]. generalize f_zero.
  induction ls as [|l ls IH]; intros x; [reflexivity|]. cbn [from_multiple_loop flat_map].
  rewrite from_multiple_parts_true, map_app, IH. f_equal. destruct (l_parts l); reflexivity.
Qed.

Lemma In_firstn {A} (x : A) k l : In x (firstn k l) -> In x l.
Proof. intros H. rewrite <- (firstn_skipn k l). apply in_or_app. now left. Qed.
Lemma In_skipn {A} (x : A) k l : In x (skipn k l) -> In x l.
Proof. intros H. rewrite <- (firstn_skipn k l). apply in_or_app. now right. Qed.

Lemma replaced_chars needle replacement l :
  one_char_parts l -> l_content l = needle ->
  exists l', replaced_line needle replacement l = Ok l' /\ edited needle replacement l l'.
Proof.
  intros Hc Hn. destruct (cut_exists needle replacement) as (start & mid & mid' & end_ & Hcut & Hs & He).
  pose proof Hcut as (En & Er & _). unfold replaced_line. cbv zeta.
  set (pre := common_prefix_len needle replacement) in *. set (post := common_postfix_len needle replacement) in *.
  assert (Ln : List.length (l_content l) = (pre + List.length mid + post)%nat).
  { rewrite Hn, En, !app_length. lia. }
  (* the kept start *)
  destruct (slice_chars' l 0 (Some (Z.of_nat pre)) 0 (Z.of_nat pre) Hc) as (r1 & E1 & C1 & P1);
    [apply from_end_nonneg; lia|apply from_end_nonneg; lia|lia|lia|].
  rewrite Z.sub_0_r, Nat2Z.id in P1. change (skipn (Z.to_nat 0) (positions l)) with (positions l) in P1.
  assert (S1 : substring (l_content l) 0 (Z.of_nat pre) = start).
  { unfold substring. rewrite Nat2Z.id. change (Z.to_nat 0) with O. rewrite Nat.sub_0_r. cbn [skipn].
    rewrite Hn, En, <- Hs, firstn_app, Nat.sub_diag, firstn_O, app_nil_r. apply firstn_all. }
  rewrite S1 in C1. rewrite E1. cbn [bind].
  (* the rest *)
  destruct (slice_chars' l (Z.of_nat pre) None (Z.of_nat pre) (Z.of_nat (List.length (l_content l))) Hc) as (r2 & E2 & _ & P2);
    [apply from_end_nonneg; lia|apply from_end_nonneg; cbn; lia|lia|lia|].
  rewrite Nat2Z.id in P2. rewrite E2. cbn [bind].
  assert (I2 : same_float (l_indent r2) (nth pre (positions l) f_zero)).
  { eapply same_float_trans; [apply indent_position|].
    eapply same_float_trans; [apply Forall2_nth_same; exact P2|].
    rewrite firstn_all2; [rewrite nth_skipn0; constructor|].
    rewrite skipn_length, positions_length, (char_count l Hc). lia. }
  (* the kept end *)
  assert (H3 : exists r3,
    match post with
    | O => Ok (skipn pre replacement, mk_line [] (l_margin_right l))
    | S _ => postfix <- l_slice l (- Z.of_nat post) None ;;
             Ok (firstn (List.length replacement - post - pre) (skipn pre replacement), postfix)
    end = Ok (mid', r3) /\
    map p_content (l_parts r3) = map (fun c => [c]) end_ /\
    same_float (l_margin_right r3) (l_margin_right l) /\
    Forall2 same_float (positions r3) (skipn (List.length needle - post) (positions l))).
  { assert (Sk : skipn pre replacement = mid' ++ end_).
    { rewrite Er, <- Hs, skipn_app, skipn_all, Nat.sub_diag. reflexivity. }
    rewrite Sk. destruct post as [|q] eqn:Eq.
    - destruct end_; [|cbn in He; lia]. rewrite app_nil_r. eexists. split; [reflexivity|].
      split; [reflexivity|]. split; [constructor|]. cbn.
      rewrite Nat.sub_0_r, <- Hn, skipn_all2; [constructor|]. rewrite positions_length, (char_count l Hc). lia.
    - set (n := Z.of_nat (List.length (l_content l))) in *.
      assert (F2 : from_end n (- Z.of_nat (S q)) = n - Z.of_nat (S q)) by (rewrite from_end_neg; lia).
      destruct (slice_chars' l (- Z.of_nat (S q)) None (n - Z.of_nat (S q)) n Hc) as (r3 & E3 & C3 & P3);
        [exact F2|apply from_end_nonneg; cbn; lia|fold n; lia|fold n; lia|].
      rewrite E3. cbn [bind]. exists r3. split; [|split; [|split]].
      + f_equal. f_equal. rewrite Er, !app_length.
        replace (List.length start + (List.length mid' + List.length end_) - S q - pre)%nat with (List.length mid') by lia.
        rewrite firstn_app, Nat.sub_diag, firstn_O, app_nil_r. apply firstn_all.
      + rewrite C3. f_equal. rewrite Hn, En. unfold n. rewrite Ln.
        rewrite app_assoc. rewrite <- (app_nil_r end_) at 1.
        replace (Z.of_nat (pre + List.length mid + S q) - Z.of_nat (S q)) with (Z.of_nat (List.length (start ++ mid))) by (rewrite app_length; lia).
        replace (Z.of_nat (pre + List.length mid + S q)) with (Z.of_nat (List.length (start ++ mid) + List.length end_)) by (rewrite app_length; lia).
        apply substring_parts.
      + eapply slice_tail_margin; [exact Hc|exact E3|]. fold n. rewrite F2. unfold n. lia.
      + rewrite firstn_all2 in P3.
        * replace (Z.to_nat (n - Z.of_nat (S q))) with (List.length needle - S q)%nat in P3 by (rewrite <- Hn; unfold n; lia).
          exact P3.
        * rewrite skipn_length, positions_length, (char_count l Hc). unfold n. lia. }
  destruct H3 as (r3 & E3 & C3 & M3 & P3). fold post. rewrite E3. cbn [bind].
  eexists. split; [reflexivity|]. exists start, mid, mid', end_. split; [exact Hcut|].
  split; [|split].
  - rewrite from_multiple_contents. cbn [flat_map l_parts map p_content]. rewrite C1, C3, app_nil_r. reflexivity.
  - exact M3.
  - intros Hex.
    eapply Forall2_same_trans; [apply (from_multiple_exact l _ Hex)|].
    + intros x Hx. cbn [flat_map] in Hx. rewrite app_nil_r in Hx.
      assert (HN : forall i, In (nth i (positions l) f_zero) (f_zero :: positions l)).
      { intros i. destruct (nth_in_or_default i (positions l) f_zero) as [H| ->]; [now right|now left]. }
      apply in_app_or in Hx as [Hx|Hx]; [|apply in_app_or in Hx as [Hx|Hx]].
      * destruct (Forall2_same_In _ _ _ P1 Hx) as (y & Hy & Hxy). exists y. split; [right; eapply In_firstn; eauto|exact Hxy].
      * cbn in Hx. destruct Hx as [<-|[]]. exists (nth pre (positions l) f_zero). split; [apply HN|].
        eapply same_float_trans; [apply f_add_zero_l|exact I2].
      * destruct (Forall2_same_In _ _ _ P3 Hx) as (y & Hy & Hxy). exists y. split; [right; eapply In_skipn; eauto|exact Hxy].
    + cbn [flat_map]. rewrite app_nil_r. rewrite Hs, He. apply Forall2_app; [exact P1|]. apply Forall2_app; [|exact P3].
      cbn. constructor; [|constructor]. eapply same_float_trans; [apply f_add_zero_l|exact I2].
Qed.

Lemma edited_content needle replacement l l' : edited needle replacement l l' -> l_content l' = replacement.
Proof.
  intros (s & m & m' & e & (_ & -> & _) & H & _). unfold l_content.
  replace (flat_map p_content (l_parts l')) with (concat (map p_content (l_parts l'))) by now rewrite flat_map_concat_map.
  rewrite H, !concat_app. cbn. rewrite app_nil_r.
  assert (K : forall x : pystr, concat (map (fun c => [c]) x) = x) by (induction x; cbn; congruence).
  now rewrite !K.
Qed.

(** the result in general, for lines of any parts *)
Lemma replaced_content needle replacement l l' :
  l_content l = needle -> replaced_line needle replacement l = Ok l' ->
  (forall before last, l_parts l = before ++ [last] -> (List.length (p_content last) <= 1)%nat) ->
  l_content l' = replacement.
Proof.
  intros Hn E Hlast. destruct (cut_exists needle replacement) as (start & mid & mid' & end_ & Hcut & Hs & He).
  pose proof Hcut as (En & Er & _). unfold replaced_line in E. cbv zeta in E.
  set (pre := common_prefix_len needle replacement) in *. set (post := common_postfix_len needle replacement) in *.
  assert (Ln : List.length (l_content l) = (pre + List.length mid + post)%nat).
  { rewrite Hn, En, !app_length. lia. }
  assert (NL : forall s e r, l_slice l s e = Ok r ->
     l_content r = substring (l_content l) (from_end (Z.of_nat (List.length (l_content l))) s) (from_end (Z.of_nat (List.length (l_content l))) (the_end l e))).
  { intros s e r Er'. destruct (slice_content l s e r Er') as [H|(-> & b & q & Ep & Hlt)]; [exact H|].
    exfalso. specialize (Hlast _ _ Ep).
    assert (Z.of_nat (List.length (l_content l)) = text_len b + Z.of_nat (List.length (p_content q))); [|lia].
    unfold l_content. rewrite Ep. fold (text_of (b ++ [q])). fold (text_len (b ++ [q])).
    rewrite text_len_app, text_len_cons, text_len_nil. lia. }
  destruct (l_slice l 0 (Some (Z.of_nat pre))) as [r1|] eqn:E1; [|discriminate]. cbn [bind] in E.
  destruct (l_slice l (Z.of_nat pre) None) as [r2|] eqn:E2; [|discriminate]. cbn [bind] in E.
  assert (C1 : l_content r1 = start).
  { rewrite (NL _ _ _ E1). cbn [the_end]. unfold from_end. change (0 <? 0) with false. cbv iota.
    replace (Z.of_nat pre <? 0) with false by lia.
    unfold substring. rewrite Nat2Z.id. change (Z.to_nat 0) with O. rewrite Nat.sub_0_r. cbn [skipn].
    rewrite Hn, En, <- Hs, firstn_app, Nat.sub_diag, firstn_O, app_nil_r. apply firstn_all. }
  assert (Sk : skipn pre replacement = mid' ++ end_).
  { rewrite Er, <- Hs, skipn_app, skipn_all, Nat.sub_diag. reflexivity. }
  rewrite Sk in E. destruct post as [|q] eqn:Eq.
  - destruct end_; [|cbn in He; lia]. cbn [bind] in E. injection E as <-.
    rewrite from_multiple_content. cbn [flat_map l_content l_parts p_content]. rewrite C1, Er, !app_nil_r. reflexivity.
  - destruct (l_slice l (- Z.of_nat (S q)) None) as [r3|] eqn:E3; [|discriminate]. cbn [bind] in E. injection E as <-.
    rewrite from_multiple_content. cbn [flat_map l_parts p_content]. rewrite !app_nil_r.
    rewrite C1. change (l_content (mk_line ?x ?y)) with (flat_map p_content x). cbn [flat_map p_content]. rewrite app_nil_r.
    assert (C3 : l_content r3 = end_).
    { rewrite (NL _ _ _ E3). cbn [the_end]. unfold from_end.
      replace (- Z.of_nat (S q) <? 0) with true by lia.
      replace (Z.of_nat (List.length (l_content l)) <? 0) with false by lia.
      rewrite Hn, En. rewrite app_assoc. rewrite <- (app_nil_r end_) at 1.
      replace (_ + _) with (Z.of_nat (List.length (start ++ mid))) by (rewrite !app_length, ?app_nil_r; cbn; lia).
      rewrite app_nil_r at 1.
      replace (List.length ((start ++ mid) ++ end_)) with (List.length (start ++ mid) + List.length end_)%nat by (rewrite (app_length (start ++ mid)); lia).
      rewrite <- (app_nil_r end_) at 1. apply substring_parts. }
    rewrite C3. rewrite Er at 2. f_equal. f_equal. rewrite Er, !app_length.
    replace (List.length start + (List.length mid' + List.length end_) - S q - pre)%nat with (List.length mid') by lia.
    rewrite firstn_app, Nat.sub_diag, firstn_O, app_nil_r. apply firstn_all.
Qed.
Lemma replaced_err needle replacement l e : replaced_line needle replacement l = Err e -> e = ValueError.
Proof.
  unfold replaced_line. cbv zeta. destruct (l_slice l 0 _) eqn:E1; cbn [bind]; [|intros [= <-]; now apply slice_error in E1].
  destruct (l_slice l (Z.of_nat _) None) eqn:E2; cbn [bind]; [|intros [= <-]; now apply slice_error in E2].
  destruct (common_postfix_len _ _); [discriminate|].
  destruct (l_slice l (- _) None) eqn:E3; cbn [bind]; [discriminate|]. intros [= <-]. now apply slice_error in E3.
Qed.

(** the loop *)
Definition meantb (needle : pystr) (prev : option (list pystr)) (result : list line) (l : line) : bool :=
  str_eqb (l_content l) needle && prev_lines_match prev result.
Lemma meantb_spec needle prev result l :
  meantb needle prev result l = true <-> meant needle prev (map l_content result) (l_content l).
Proof.
  unfold meantb, meant. rewrite andb_true_iff, str_eqb_eq.
  assert (H : prev_lines_match prev result = true <->
    match prev with None => True | Some ps => exists a, map l_content result = a ++ ps end); [|tauto].
  unfold prev_lines_match. destruct prev as [ps|]; [|tauto].
  rewrite andb_true_iff, Nat.leb_le, (list_eqb_eq str_eqb str_eqb_eq). split.
  - intros [Hl Hm]. exists (map l_content (firstn (List.length result - List.length ps) result)).
    rewrite <- Hm at 2. rewrite <- map_app, firstn_skipn. reflexivity.
  - intros (a & Ha). assert (L : List.length result = (List.length a + List.length ps)%nat).
    { apply (f_equal (@List.length pystr)) in Ha. now rewrite map_length, app_length in Ha. }
    split; [lia|]. rewrite L. replace (List.length a + List.length ps - List.length ps)%nat with (List.length a) by lia.
    rewrite <- skipn_map, Ha, skipn_app, skipn_all, Nat.sub_diag. reflexivity.
Qed.

Definition new_lines (needle replacement : pystr) (l : line) : res (list line) :=
  match replacement with [] => Ok [] | _ => l' <- replaced_line needle replacement l ;; Ok [l'] end.

Lemma replace_loop_eq needle replacement prev l t result n :
  replace_loop needle replacement prev (l :: t) result n =
  if meantb needle prev result l
  then new <- new_lines needle replacement l ;; replace_loop needle replacement prev t (result ++ new) (S n)
  else replace_loop needle replacement prev t (result ++ [l]) n.
Proof.
  cbn [replace_loop]. unfold meantb, new_lines.
  destruct (str_eqb _ _); cbn [negb orb andb]; [|reflexivity].
  destruct (prev_lines_match _ _); cbn [negb]; [|reflexivity].
  destruct replacement; cbn [bind]; [now rewrite app_nil_r|].
  destruct (replaced_line _ _ _); reflexivity.
Qed.

(* no line of the list is meant *)
Fixpoint none_meant (needle : pystr) (prev : option (list pystr)) (result ls : list line) : Prop :=
  match ls with
  | [] => True
  | l :: t => meantb needle prev result l = false /\ none_meant needle prev (result ++ [l]) t
  end.
Lemma none_meant_spec needle prev ls : forall result,
  none_meant needle prev result ls <->
  forall a x b, map l_content ls = a ++ x :: b -> ~ meant needle prev (map l_content result ++ a) x.
Proof.
  induction ls as [|l ls IH]; intros result; cbn [none_meant map].
  - split; [|tauto]. intros _ [|? ?] ? ? H; discriminate.
  - rewrite IH. split.
    + intros [H1 H2] [|y a] x b E; cbn in E; injection E as <- E.
      * rewrite app_nil_r, <- meantb_spec. congruence.
      * specialize (H2 a x b E). rewrite map_app, <- app_assoc in H2. exact H2.
    + intros H. split.
      * specialize (H [] (l_content l) (map l_content ls) eq_refl). rewrite app_nil_r, <- meantb_spec in H.
        now destruct (meantb _ _ _ _).
      * intros a x b E. rewrite map_app, <- app_assoc. apply (H (l_content l :: a) x b). now rewrite E.
Qed.

Lemma replace_loop_none needle replacement prev ls : forall result n, none_meant needle prev result ls ->
  replace_loop needle replacement prev ls result n = Ok (result ++ ls, n).
Proof.
  induction ls as [|l ls IH]; intros result n H; [cbn; now rewrite app_nil_r|].
  rewrite replace_loop_eq. destruct H as [-> H]. rewrite IH by exact H. now rewrite <- app_assoc.
Qed.
Lemma replace_loop_app needle replacement prev a : forall b result n, none_meant needle prev result a ->
  replace_loop needle replacement prev (a ++ b) result n =
  replace_loop needle replacement prev b (result ++ a) n.
Proof.
  induction a as [|l a IH]; intros b result n H; [cbn [app]; now rewrite app_nil_r|].
  cbn [app]. rewrite replace_loop_eq. destruct H as [-> H]. rewrite IH by exact H. now rewrite <- app_assoc.
Qed.
Lemma first_meant needle prev ls : forall result, none_meant needle prev result ls \/
  exists a l b, ls = a ++ l :: b /\ none_meant needle prev result a /\ meantb needle prev (result ++ a) l = true.
Proof.
  induction ls as [|l ls IH]; intros result; [left; exact I|].
  destruct (meantb needle prev result l) eqn:E.
  - right. exists [], l, ls. rewrite app_nil_r. repeat split; auto.
  - destruct (IH (result ++ [l])) as [H|(a & x & b & -> & Ha & Hx)].
    + left. split; assumption.
    + right. exists (l :: a), x, b. rewrite <- app_assoc in Hx. repeat split; auto.
Qed.
Lemma replace_loop_count needle replacement prev ls : forall result n r m,
  replace_loop needle replacement prev ls result n = Ok (r, m) -> (n <= m)%nat.
Proof.
  induction ls as [|l ls IH]; intros result n r m H; [injection H as <- <-; lia|].
  rewrite replace_loop_eq in H. destruct (meantb _ _ _ _); [|eauto].
  destruct (new_lines _ _ _); cbn [bind] in H; [|discriminate]. apply IH in H. lia.
Qed.
Lemma replace_loop_err needle replacement prev ls : forall result n e,
  replace_loop needle replacement prev ls result n = Err e -> e = ValueError.
Proof.
  induction ls as [|l ls IH]; intros result n e H; [discriminate|].
  rewrite replace_loop_eq in H. destruct (meantb _ _ _ _); [|eauto].
  destruct (new_lines needle replacement l) eqn:E; cbn [bind] in H; [eauto|]. injection H as <-.
  unfold new_lines in E. destruct replacement; [discriminate|].
  destruct (replaced_line _ _ _) eqn:E2; cbn [bind] in E; [discriminate|]. injection E as <-. now apply replaced_err in E2.
Qed.

Lemma replace_spec needle replacement prev body r :
  replace_line_content needle replacement prev body = Ok r <->
  exists before l after new, body = before ++ l :: after /\ new_lines needle replacement l = Ok new /\
    none_meant needle prev [] before /\ meantb needle prev before l = true /\
    none_meant needle prev (before ++ new) after /\ r = before ++ new ++ after.
Proof.
  unfold replace_line_content. split.
  - intros H. destruct (first_meant needle prev body []) as [Hn|(a & l & b & -> & Ha & Hl)].
    + rewrite replace_loop_none in H by exact Hn. discriminate.
    + rewrite replace_loop_app in H by exact Ha. rewrite replace_loop_eq in H. rewrite Hl in H.
      destruct (new_lines needle replacement l) as [new|] eqn:En; cbn [bind] in H; [|discriminate].
      cbn [app] in *. destruct (first_meant needle prev b (a ++ new)) as [Hb|(a2 & l2 & b2 & -> & Ha2 & Hl2)].
      * rewrite replace_loop_none in H by exact Hb. cbn in H. injection H as <-.
        exists a, l, b, new. rewrite <- app_assoc. repeat split; auto.
      * rewrite replace_loop_app in H by exact Ha2. rewrite replace_loop_eq in H. rewrite Hl2 in H.
        destruct (new_lines needle replacement l2); cbn [bind] in H; [|discriminate].
        destruct (replace_loop _ _ _ b2 _ 2) as [[rr m]|] eqn:E; cbn [bind] in H; [|discriminate].
        apply replace_loop_count in E. destruct m as [|[|m]]; try lia. discriminate.
  - intros (a & l & b & new & -> & En & Ha & Hl & Hb & ->).
    rewrite replace_loop_app by exact Ha. rewrite replace_loop_eq. cbn [app]. rewrite Hl, En. cbn [bind].
    rewrite replace_loop_none by exact Hb. cbn. now rewrite <- app_assoc.
Qed.
Lemma replace_err needle replacement prev body e :
  replace_line_content needle replacement prev body = Err e -> e = ValueError.
Proof.
  unfold replace_line_content. destruct (replace_loop _ _ _ _ _ _) as [[r n]|] eqn:E; cbn [bind].
  - destruct (exactly_one n) eqn:E2; cbn; [discriminate|]. intros [= <-]. now apply exactly_one_err in E2.
  - intros [= <-]. now apply replace_loop_err in E.
Qed.

Lemma meantb_content needle prev before l : meantb needle prev before l = true -> l_content l = needle.
Proof. unfold meantb. intros H. apply andb_prop in H as [H _]. now apply str_eqb_eq. Qed.

Definition new_texts (replacement : pystr) : list pystr := match replacement with [] => [] | _ => [replacement] end.

(* which line is replaced, and what stands there after *)
Lemma replace_result needle replacement prev body r :
  replace_line_content needle replacement prev body = Ok r ->
  (forall l before last, In l body -> l_parts l = before ++ [last] -> (List.length (p_content last) <= 1)%nat) ->
  exists before l after new, body = before ++ l :: after /\ r = before ++ new ++ after /\
    l_content l = needle /\ map l_content new = new_texts replacement /\
    only_meant needle prev (new_texts replacement) (map l_content before) (map l_content after).
Proof.
  intros H Hlast. apply replace_spec in H as (a & l & b & new & -> & En & Ha & Hl & Hb & ->).
  pose proof (meantb_content _ _ _ _ Hl) as Hc.
  assert (Hnew : map l_content new = new_texts replacement).
  { unfold new_lines, new_texts in *. destruct replacement as [|c t]; [injection En as <-; reflexivity|].
    destruct (replaced_line needle (c :: t) l) as [l'|] eqn:El; cbn [bind] in En; [|discriminate]. injection En as <-. cbn. f_equal.
    eapply replaced_content; eauto. intros before last Ep. eapply Hlast; [|exact Ep]. apply in_or_app. right. now left. }
  exists a, l, b, new. repeat split; auto.
  - rewrite none_meant_spec in Ha. cbn in Ha. apply meantb_spec in Hl as [_ Hl]. exact Hl.
  - rewrite none_meant_spec in Ha. intros x y z E. specialize (Ha x y z E). exact Ha.
  - rewrite none_meant_spec in Hb. intros x y z E. specialize (Hb x y z E). rewrite map_app, <- app_assoc, Hnew in Hb. exact Hb.
Qed.

Lemma only_meant_loops needle prev new before l after :
  only_meant needle prev (map l_content new) (map l_content before) (map l_content after) -> l_content l = needle ->
  none_meant needle prev [] before /\ meantb needle prev before l = true /\ none_meant needle prev (before ++ new) after.
Proof.
  intros (H1 & H2 & H3) Hl. split; [|split].
  - rewrite none_meant_spec. cbn. exact H2.
  - apply meantb_spec. rewrite Hl. exact H1.
  - rewrite none_meant_spec. intros a x b E. rewrite map_app, <- app_assoc. eapply H3; eauto.
Qed.

(* on lines of one-character parts *)
Lemma replace_chars needle replacement prev body r :
  Forall one_char_parts body ->
  (replace_line_content needle replacement prev body = Ok r ->
   exists before l after new, body = before ++ l :: after /\ r = before ++ new ++ after /\
     l_content l = needle /\
     only_meant needle prev (new_texts replacement) (map l_content before) (map l_content after) /\
     (replacement = [] /\ new = [] \/ replacement <> [] /\ exists l', new = [l'] /\ edited needle replacement l l')).
Proof.
  intros Hch H. apply replace_result in H as H'.
  2: { intros l b q Hi Ep. rewrite Forall_forall in Hch. specialize (Hch l Hi). unfold one_char_parts in Hch.
       rewrite Ep in Hch. apply Forall_app in Hch as [_ Hq]. inversion Hq; subst. lia. }
  clear H'. apply replace_spec in H as (a & l & b & new & -> & En & Ha & Hl & Hb & ->).
  pose proof (meantb_content _ _ _ _ Hl) as Hc.
  assert (Hl1 : one_char_parts l). { rewrite Forall_forall in Hch. apply Hch, in_or_app. right. now left. }
  assert (Hnew : (replacement = [] /\ new = [] \/ replacement <> [] /\ exists l', new = [l'] /\ edited needle replacement l l') /\
                 map l_content new = new_texts replacement).
  { unfold new_lines, new_texts in *. destruct replacement as [|c t].
    - injection En as <-. split; [now left|reflexivity].
    - destruct (replaced_chars needle (c :: t) l Hl1 Hc) as (l' & E & He). rewrite E in En. cbn [bind] in En. injection En as <-.
      split; [right; split; [discriminate|eauto]|]. cbn. f_equal. eapply edited_content; eauto. }
  destruct Hnew as [Hnew1 Hnew]. exists a, l, b, new. repeat split; auto.
  - apply meantb_spec in Hl as [_ Hl]. exact Hl.
  - rewrite none_meant_spec in Ha. exact Ha.
  - rewrite none_meant_spec in Hb. intros x y z E. specialize (Hb x y z E). rewrite map_app, <- app_assoc, Hnew in Hb. exact Hb.
Qed.
Lemma replace_chars_ok needle replacement prev before l after :
  Forall one_char_parts (before ++ l :: after) -> l_content l = needle ->
  only_meant needle prev (new_texts replacement) (map l_content before) (map l_content after) ->
  exists r, replace_line_content needle replacement prev (before ++ l :: after) = Ok r.
Proof.
  intros Hch Hc Hm.
  assert (Hl1 : one_char_parts l). { rewrite Forall_forall in Hch. apply Hch, in_or_app. right. now left. }
  assert (E : exists new, new_lines needle replacement l = Ok new /\ map l_content new = new_texts replacement).
  { unfold new_lines, new_texts. destruct replacement as [|c t]; [eauto|].
    destruct (replaced_chars needle (c :: t) l Hl1 Hc) as (l' & -> & He). cbn [bind]. eexists. split; [reflexivity|]. cbn. f_equal.
    eapply edited_content; eauto. }
  destruct E as (new & E & En). rewrite <- En in Hm.
  destruct (only_meant_loops needle prev new before l after Hm Hc) as (H1 & H2 & H3).
  eexists. apply replace_spec. exists before, l, after, new. repeat split; auto.
Qed.

(** * C52 *)
Lemma no_newline_spec s : no_newline s = true <-> ~ In 10%N s.
Proof.
  unfold no_newline. rewrite forallb_forall. split.
  - intros H Hi. specialize (H _ Hi). discriminate.
  - intros H x Hx. destruct (N.eqb_spec x 10); [subst; contradiction|reflexivity].
Qed.
Lemma drop_final s : (exists r, s = r ++ [10%N] /\ drop_final_newline s = r) \/
  ((forall r, s <> r ++ [10%N]) /\ drop_final_newline s = s).
Proof.
  unfold drop_final_newline. destruct (rev s) as [|c t] eqn:E.
  - right. split; [|reflexivity]. intros r ->. rewrite rev_app_distr in E. discriminate.
  - assert (Es : s = rev t ++ [c]) by (rewrite <- (rev_involutive s), E; reflexivity).
    destruct (N.eq_dec c 10) as [->|Hc].
    + left. eauto.
    + right. split.
      * intros r ->. rewrite rev_app_distr in E. injection E as <- _. congruence.
      * destruct c as [|p]; [reflexivity|]. repeat (destruct p as [p|p|]; try reflexivity; try congruence).
Qed.

Lemma title_match_spec s t : title_match s = Some t <-> bracketed s t.
Proof.
  unfold title_match, bracketed.
  assert (A : forall u, match u with
    | [] => None
    | o :: t => if (o =? 91)%N || (o =? 40)%N
        then match rev t with
             | [] => None
             | c :: m => if ((c =? 41)%N || (c =? 93)%N) && no_newline m then Some (rev m) else None
             end else None end = Some t <->
    exists o c, In o (u8 "[(") /\ In c (u8 ")]") /\ ~ In 10%N t /\ u = o :: t ++ [c]).
  { intros u. split.
    - destruct u as [|o v]; [discriminate|]. destruct ((o =? 91)%N || (o =? 40)%N) eqn:Eo; [|discriminate].
      destruct (rev v) as [|c m] eqn:Ev; [discriminate|]. destruct (_ && _) eqn:Ec; [|discriminate]. intros [= <-].
      apply andb_prop in Ec as [Ec Em]. apply no_newline_spec in Em. exists o, c.
      assert (v = rev m ++ [c]) by (rewrite <- (rev_involutive v), Ev; reflexivity). subst v.
      repeat split.
      + cbn. lia.
      + cbn. lia.
      + rewrite <- in_rev. exact Em.
    - intros (o & c & Ho & Hc & Ht & ->). rewrite rev_app_distr. cbn [rev app].
      replace ((o =? 91)%N || (o =? 40)%N) with true by (cbn in Ho; lia).
      replace ((c =? 41)%N || (c =? 93)%N) with true by (cbn in Hc; lia).
      replace (no_newline (rev t)) with true; [cbn; now rewrite rev_involutive|].
      symmetry. apply no_newline_spec. now rewrite <- in_rev. }
  rewrite (A (drop_final_newline s)).
  destruct (drop_final s) as [(r & -> & Ed)|(Hn & Ed)]; rewrite Ed; split; intros (o & c & Ho & Hc & Ht & E).
  - exists o, c. repeat split; auto. right. rewrite E. cbn. now rewrite <- app_assoc.
  - exists o, c. repeat split; auto. destruct E as [E|E].
    + exfalso. change (o :: t ++ [c]) with ((o :: t) ++ [c]) in E. apply app_inj_tail in E as [_ <-]. cbn in Hc. lia.
    + change (o :: t ++ [c; 10%N]) with (o :: t ++ ([c] ++ [10%N])) in E. rewrite app_assoc in E.
      change (o :: (t ++ [c]) ++ [10%N]) with ((o :: t ++ [c]) ++ [10%N]) in E. now apply app_inj_tail in E as [-> _].
  - exists o, c. repeat split; auto.
  - exists o, c. repeat split; auto. destruct E as [E|E]; [exact E|]. exfalso. apply (Hn (o :: t ++ [c])).
    rewrite E. cbn. now rewrite <- app_assoc.
Qed.

Lemma digits_len_spec s : exists d r, s = d ++ r /\ List.length d = digits_len s /\
  Forall (fun c => 48 <= c <= 57)%N d /\ (forall c t, r = c :: t -> ~ (48 <= c <= 57)%N).
Proof.
  induction s as [|c s (d & r & E & Hl & Hd & Hr)]; [exists [], []; repeat split; auto; congruence|]. cbn.
  destruct ((48 <=? c)%N && (c <=? 57)%N) eqn:Ec.
  - exists (c :: d), r. cbn. rewrite E at 1. repeat split; auto. constructor; [lia|exact Hd].
  - exists [], (c :: s). repeat split; auto. intros x t [= <- <-]. lia.
Qed.
Lemma digits_unique d1 : forall d2 r1 r2, d1 ++ r1 = d2 ++ r2 ->
  Forall (fun c => 48 <= c <= 57)%N d1 -> Forall (fun c => 48 <= c <= 57)%N d2 ->
  (forall c t, r1 = c :: t -> ~ (48 <= c <= 57)%N) -> (forall c t, r2 = c :: t -> ~ (48 <= c <= 57)%N) -> d1 = d2 /\ r1 = r2.
Proof.
  induction d1 as [|x d1 IH]; intros [|y d2] r1 r2 E H1 H2 N1 N2; cbn in E.
  - auto.
  - exfalso. inversion H2; subst. eapply N1; eauto.
  - exfalso. inversion H1; subst. eapply N2; eauto.
  - injection E as <- E. inversion H1; inversion H2; subst. destruct (IH d2 r1 r2 E) as [-> ->]; auto.
Qed.

Lemma article_match_spec s n : article_match s = Some n <->
  exists header rest, article_start s header rest /\ List.length header = n.
Proof.
  destruct (digits_len_spec s) as (d & r & E & Hl & Hd & Hr).
  assert (Hrest : forall rest, no_newline (drop_final_newline rest) = true <->
     (~ In 10%N rest \/ exists r, rest = r ++ [10%N] /\ ~ In 10%N r)).
  { intros rest. rewrite no_newline_spec. destruct (drop_final rest) as [(q & -> & ->)|(Hn & ->)].
    - split; [right; eauto|]. intros [H|(q' & Eq & H)].
      + exfalso. apply H. apply in_or_app. right. now left.
      + apply app_inj_tail in Eq as [-> _]. exact H.
    - split; [now left|]. intros [H|(q & -> & _)]; [exact H|]. now destruct (Hn q). }
  unfold article_match. assert (Sk : skipn (digits_len s) s = r).
  { rewrite <- Hl. rewrite E. rewrite skipn_app, skipn_all, Nat.sub_diag. reflexivity. }
  rewrite Sk. split.
  - intros H. destruct (digits_len s) as [|k] eqn:Ek; [discriminate|].
    assert (exists rest, r = u8 ". § " ++ rest /\ no_newline (drop_final_newline rest) = true /\ n = (S k + 4)%nat) as (rest & -> & Hnn & ->).
    { destruct r as [|c1 r]; [discriminate|]. destruct (N.eq_dec c1 46) as [->|]; [|exfalso; destruct c1 as [|p]; [discriminate|]; repeat (destruct p; try discriminate; try congruence)].
      destruct r as [|c2 r]; [discriminate|]. destruct (N.eq_dec c2 32) as [->|]; [|exfalso; destruct c2 as [|p]; [discriminate|]; repeat (destruct p; try discriminate; try congruence)].
      destruct r as [|c3 r]; [discriminate|]. destruct (N.eq_dec c3 167) as [->|]; [|exfalso; destruct c3 as [|p]; [discriminate|]; repeat (destruct p; try discriminate; try congruence)].
      destruct r as [|c4 r]; [discriminate|]. destruct (N.eq_dec c4 32) as [->|]; [|exfalso; destruct c4 as [|p]; [discriminate|]; repeat (destruct p; try discriminate; try congruence)].
      destruct (no_newline (drop_final_newline r)) eqn:Hnn; [|discriminate]. injection H as <-. exists r. auto. }
    exists (d ++ u8 ". § "), rest. split.
    + exists d. repeat split; auto.
      * intros ->. cbn in Hl. lia.
      * now rewrite <- app_assoc.
      * now apply Hrest.
    + rewrite app_length, Hl. reflexivity.
  - intros (header & rest & (d' & Hd' & Hf & -> & Es & Hn) & <-).
    rewrite Es, <- app_assoc in E. destruct (digits_unique d' d (u8 ". § " ++ rest) r E) as [-> <-]; auto.
    { intros c t Ec. cbn in Ec. injection Ec as <- _. lia. }
    apply Hrest in Hn. cbn [app]. destruct (digits_len s) as [|k] eqn:Ek; [destruct d; [congruence|cbn in Hl; lia]|].
    cbn. rewrite Hn. f_equal. rewrite app_length, Hl. reflexivity.
Qed.

Lemma article_start_len s header rest : article_start s header rest ->
  firstn (List.length header) s = header /\ skipn (List.length header) s = rest /\ (List.length header <= List.length s)%nat.
Proof.
  intros (d & _ & _ & _ & -> & _). rewrite firstn_app, firstn_all, Nat.sub_diag, firstn_O, app_nil_r.
  rewrite skipn_app, skipn_all, Nat.sub_diag, app_length. repeat split; lia.
Qed.

Lemma ptke_pair_chars p l title header rest :
  one_char_parts l -> article_start (l_content l) header rest ->
  exists a b, ptke_pair p l title (List.length header) = Ok (a, b) /\
    l_content a = header ++ u8 "[" ++ title ++ u8 "]" /\ l_content b = rest /\ l_margin_right a = l_margin_right p.
Proof.
  intros Hc Ha. apply article_start_len in Ha as (Hf & Hs & Hle).
  set (h := List.length header) in *. unfold ptke_pair.
  assert (F : forall k : nat, from_end (Z.of_nat (List.length (l_content l))) (Z.of_nat k) = Z.of_nat k).
  { intros k. unfold from_end. destruct (Z.ltb_spec (Z.of_nat k) 0); lia. }
  destruct (slice_char_ok l 0 (Some (Z.of_nat h)) Hc) as (r1 & E1 & _ & C1); [rewrite from_end_nonneg; lia|cbn [the_end]; rewrite F; lia|].
  destruct (slice_char_ok l (Z.of_nat h) None Hc) as (r2 & E2 & _ & C2); [rewrite F; lia|cbn [the_end]; rewrite F; lia|].
  rewrite E1, E2. cbn [bind]. eexists _, _. split; [reflexivity|].
  rewrite !from_multiple_content. cbn [flat_map]. rewrite !app_nil_r, C1, C2. cbn [the_end].
  change 0 with (Z.of_nat 0). rewrite !F. unfold substring. rewrite !Nat2Z.id. cbn [skipn]. rewrite Nat.sub_0_r, Hf, Hs.
  split; [|split].
  - f_equal. change (l_content (mk_line ?x ?y)) with (flat_map p_content x). cbn [flat_map p_content]. now rewrite app_nil_r.
  - apply firstn_all2. rewrite <- Hs, skipn_length. lia.
  - reflexivity.
Qed.

Lemma ptke_loop_spec body : Forall one_char_parts body ->
  (exists r, ptke_loop None body = Ok r /\ titles_moved body r) /\
  (forall p, exists r, ptke_loop (Some p) body = Ok r /\ titles_moved (p :: body) r).
Proof.
  induction body as [|l body IH]; intros Hc.
  - split; [exists []; split; [reflexivity|constructor]|]. intros p. exists [p]. split; [reflexivity|constructor].
  - inversion Hc as [|? ? Hl Hb]; subst. destruct (IH Hb) as [(r0 & E0 & M0) IH2]. split.
    + cbn [ptke_loop]. apply IH2.
    + intros p. cbn [ptke_loop].
      destruct (title_match (l_content p)) as [title|] eqn:Et; [destruct (article_match (l_content l)) as [n|] eqn:Ea|].
      * apply title_match_spec in Et. apply article_match_spec in Ea as (header & rest & Ha & <-).
        destruct (ptke_pair_chars p l title header rest Hl Ha) as (a & b & E & Ca & Cb & Hm).
        rewrite E. cbn [bind]. rewrite E0. cbn [bind]. eexists. split; [reflexivity|].
        eapply moved_pair; eauto.
      * destruct (IH2 l) as (r & E & M). rewrite E. cbn [bind]. eexists. split; [reflexivity|].
        apply moved_not; [|exact M]. intros t h rs _ Ha.
        assert (article_match (l_content l) = Some (List.length h)) by (apply article_match_spec; eauto). congruence.
      * destruct (IH2 l) as (r & E & M). rewrite E. cbn [bind]. eexists. split; [reflexivity|].
        apply moved_not; [|exact M]. intros t h rs Ht _. apply title_match_spec in Ht. congruence.
Qed.
Lemma moved_length a b : titles_moved a b -> List.length a = List.length b.
Proof. induction 1; cbn in *; lia. Qed.
Lemma ptke_err body : forall p e, ptke_loop p body = Err e -> e = ValueError.
Proof.
  induction body as [|l body IH]; intros p e H; cbn [ptke_loop] in H; [discriminate|].
  destruct p as [p|]; [|eauto].
  assert (K : (r <- ptke_loop (Some l) body ;; Ok (p :: r)) = Err e -> e = ValueError).
  { destruct (ptke_loop (Some l) body) eqn:E; cbn; [discriminate|]. intros [= <-]. eauto. }
  destruct (title_match _); [|auto]. destruct (article_match _) as [n|]; [|auto].
  unfold ptke_pair in H. destruct (l_slice l 0 _) eqn:E1; cbn [bind] in H; [|injection H as <-; now apply slice_error in E1].
  destruct (l_slice l (Z.of_nat n) _) eqn:E2; cbn [bind] in H; [|injection H as <-; now apply slice_error in E2].
  destruct (ptke_loop None body) eqn:E3; cbn [bind] in H; [discriminate|]. injection H as <-. eauto.
Qed.
