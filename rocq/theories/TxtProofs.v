From Coq Require Import Lia.
From Coq Require Import ZifyBool ZifyNat ZifyN.
From Verif Require Import PyBase PyBaseFacts IdModel LineModel DateModel RefModel TreeModel TreeSpec StructModel GazModel HtmlModel HtmlSpec HtmlProofs HtmlProofs2 HtmlProofs3 TxtModel TxtSpec.

(** * Wrapping *)
Lemma take_spec room chunks : forall a b, take_chunks room chunks = (a, b) -> chunks = a ++ b /\ (List.length (concat a) <= room)%nat /\
  match b with [] => True | c :: _ => (room < List.length (concat a) + List.length c)%nat end.
Proof.
  revert room. induction chunks as [|c t IH]; intros room a b E; cbn [take_chunks] in E; [injection E as <- <-; cbn; split; auto; lia|].
  destruct (Nat.leb_spec (List.length c) room) as [L|L].
  - destruct (take_chunks (room - List.length c) t) as [a' b'] eqn:E'. injection E as <- <-. destruct (IH _ _ _ E') as (-> & L2 & L3). split; [reflexivity|]. cbn [concat]. rewrite app_length. split; [lia|]. destruct b'; auto. lia.
  - injection E as <- <-. cbn. split; auto. split; [lia|exact L].
Qed.
Lemma rfind_bound s : forall i stop found, (found < stop \/ found = 0)%nat -> (rfind_hyphen i stop found s < stop \/ rfind_hyphen i stop found s = 0)%nat.
Proof.
  induction s as [|c t IH]; intros i stop found H; cbn [rfind_hyphen]; auto. destruct (Nat.leb_spec stop i); auto. apply IH. destruct (c =? 45)%N; auto.
Qed.
Lemma break_bound h c k : (break_at h c k <= k)%nat /\ (0 < k -> 0 < break_at h c k)%nat.
Proof.
  unfold break_at. destruct (h && (k <? List.length c)%nat); [|split; auto]. cbn zeta. destruct (rfind_bound c 0 k 0 (or_intror eq_refl)) as [R|R].
  - destruct (_ && _); split; lia.
  - rewrite R. change (0 <? 0)%nat with false; cbn [andb]; cbv iota. split; lia.
Qed.
Lemma drop_last_spec l : no_space (concat (drop_blank_last l)) = no_space (concat l) /\ (List.length (concat (drop_blank_last l)) <= List.length (concat l))%nat.
Proof.
  induction l as [|c l [IH1 IH2]]; [split; auto|]. destruct l as [|d l].
  - cbn [drop_blank_last]. destruct (blank c) eqn:B; [|split; auto]. cbn [concat]. rewrite app_nil_r. apply blank_spaces in B. rewrite B. split; [reflexivity|cbn; lia].
  - change (drop_blank_last (c :: d :: l)) with (c :: drop_blank_last (d :: l)). set (m := d :: l) in *. cbn [concat]. rewrite !no_space_app, IH1, !app_length. split; [reflexivity|lia].
Qed.
Lemma no_space_concat l : no_space (concat l) = concat (map no_space l).
Proof. induction l as [|x l IH]; cbn; auto. now rewrite no_space_app, IH. Qed.
Lemma wrap_ends hyphens width : (0 < width)%nat -> forall fuel started chunks, (List.length (concat chunks) + List.length chunks < fuel)%nat ->
  exists lines, wrap_chunks fuel hyphens width started chunks = Ok lines /\ no_space (concat lines) = no_space (concat chunks) /\ Forall (fun l => (List.length l <= width)%nat) lines.
Proof.
  intros W. induction fuel as [|fuel IH]; intros started chunks F; [lia|]. destruct chunks as [|first others]; [exists []; cbn; auto|]. cbn [wrap_chunks].
  set (chunks := if started && blank first then others else first :: others).
  assert (C : no_space (concat chunks) = no_space (concat (first :: others)) /\
    ((List.length (concat chunks) + List.length chunks < fuel)%nat \/ ((List.length (concat chunks) + List.length chunks <= fuel)%nat /\ chunks <> []))).
  { unfold chunks. destruct (started && blank first) eqn:B.
    - apply andb_prop in B as [_ B]. apply blank_spaces in B. cbn [concat List.length] in *. rewrite no_space_app, B. rewrite app_length in F. split; auto. left. lia.
    - split; auto. right. split; [lia|discriminate]. }
  clearbody chunks. destruct C as [C1 C2]. destruct (take_chunks width chunks) as [cur rest] eqn:T. destruct (take_spec _ _ _ _ T) as (E & L1 & L2).
  set (p := match rest with [] => (cur, []) | c :: t => if (width <? List.length c)%nat then (cur ++ [firstn (break_at hyphens c (width - List.length (concat cur))) c], skipn (break_at hyphens c (width - List.length (concat cur))) c :: t) else (cur, rest) end).
  assert (P : no_space (concat (fst p)) ++ no_space (concat (snd p)) = no_space (concat chunks) /\ (List.length (concat (fst p)) <= width)%nat /\ (List.length (concat (snd p)) + List.length (snd p) < fuel)%nat).
  { assert (Same : no_space (concat cur) ++ no_space (concat rest) = no_space (concat chunks)) by (rewrite E, concat_app, no_space_app; reflexivity).
    assert (Meas : (List.length (concat chunks) + List.length chunks = List.length (concat cur) + List.length cur + (List.length (concat rest) + List.length rest))%nat) by (rewrite E, concat_app, !app_length; lia).
    unfold p. destruct rest as [|c t].
    - cbn [fst snd concat List.length] in *. split; auto. split; auto. destruct C2 as [C2|[C2 C3]]; [lia|]. destruct cur; [now rewrite E in C3|]. cbn in Meas. lia.
    - destruct (Nat.ltb_spec width (List.length c)) as [B|B].
      + set (k := (width - List.length (concat cur))%nat) in *. destruct (break_bound hyphens c k) as [B1 B2]. set (j := break_at hyphens c k) in *. cbn [fst snd].
        split; [|split].
        * rewrite <- Same, concat_app. cbn [concat]. rewrite !no_space_app, app_nil_r, <- app_assoc. f_equal. rewrite app_assoc. f_equal. rewrite <- no_space_app, firstn_skipn. reflexivity.
        * rewrite concat_app, app_length. cbn [concat]. rewrite app_nil_r, firstn_length. lia.
        * cbn [concat List.length] in *. rewrite app_length, skipn_length in *. destruct cur as [|x cur]; [cbn [concat List.length] in *; lia|]. cbn [List.length] in *. lia.
      + cbn [fst snd]. split; auto. split; auto. destruct cur as [|x cur]; [cbn in L2; lia|]. cbn [List.length] in *. lia. }
  replace (match rest with [] => (cur, []) | c :: t => if (width <? List.length c)%nat then (cur ++ [firstn (break_at hyphens c (width - List.length (concat cur))) c], skipn (break_at hyphens c (width - List.length (concat cur))) c :: t) else (cur, rest) end) with p by reflexivity.
  destruct p as [line more]. cbn [fst snd] in P. destruct P as (P1 & P2 & P3). destruct (drop_last_spec line) as [D1 D2]. rewrite <- C1.
  destruct (drop_blank_last line) as [|x l].
  - destruct (IH started more P3) as (lines & -> & H1 & H2). exists lines. split; auto. split; auto. rewrite H1, <- P1. cbn in D1. rewrite <- D1. reflexivity.
  - destruct (IH true more P3) as (lines & -> & H1 & H2). exists (concat (x :: l) :: lines). split; [reflexivity|]. split; [|constructor; auto; lia]. change (concat (?a :: ?b)) with (a ++ concat b) at 1. rewrite no_space_app, H1, D1. exact P1.
Qed.
Lemma munge_same s : no_space (munge s) = no_space s.
Proof.
  unfold munge. generalize 0%nat. induction s as [|c s IH]; intros k; [reflexivity|]. cbn [expandtabs].
  assert (R : forall n, no_space (map (fun c => if mem_chr c [9%N; 10%N; 11%N; 12%N; 13%N; 32%N] then 32%N else c) (repeat 32%N n)) = []) by (induction n; auto).
  destruct (N.eqb_spec c 9) as [->|N9].
  - rewrite map_app, no_space_app, R, IH. reflexivity.
  - assert (G : forall k', no_space (map (fun c => if mem_chr c [9%N; 10%N; 11%N; 12%N; 13%N; 32%N] then 32%N else c) (c :: expandtabs k' s)) = no_space (c :: s)).
    { intros k'. cbn [map]. unfold no_space in *. cbn [List.filter]. rewrite IH. destruct (mem_chr c [9%N; 10%N; 11%N; 12%N; 13%N; 32%N]) eqn:M; [|reflexivity].
      unfold mem_chr in M. cbn [existsb] in M. assert (S : isspace_chr c = true) by (rewrite !orb_true_iff, !N.eqb_eq in M; intuition (subst; try reflexivity; try discriminate)). rewrite S. reflexivity. }
    destruct ((c =? 10)%N || (c =? 13)%N); apply G.
Qed.
Lemma concat_filter l : concat (List.filter (fun c => negb (str_eqb c [])) l) = concat l.
Proof. induction l as [|x l IH]; cbn; auto. destruct x; cbn; now rewrite IH. Qed.
Local Open Scope Z_scope.
Theorem wrap_spec w s width : splits w ->
  (width <= 0 /\ wrap w s width = Err ValueError) \/
  (0 < width /\ exists lines, wrap w s width = Ok lines /\ no_space (concat lines) = no_space s /\ Forall (fun l => Z.of_nat (List.length l) <= width) lines).
Proof.
  intros S. unfold wrap. destruct (Z.leb_spec width 0) as [L|L]; [left; auto|right]. split; auto.
  destruct (wrap_ends (w_hyphens w) (Z.to_nat width) ltac:(lia) (wrap_fuel (split_chunks w s)) false (split_chunks w s)) as (lines & E & H1 & H2); [unfold wrap_fuel; lia|].
  exists lines. split; auto. split; [|eapply Forall_impl; [|exact H2]; cbn; intros; lia]. rewrite H1. unfold split_chunks. rewrite concat_filter, S. apply munge_same.
Qed.

(** * Printing *)
Definition all_file (o : output) : Prop := Forall (fun p => fst p = true) o.
Definition shows (o : output) (s : pystr) : Prop := all_file o /\ no_space (concat (map snd o)) = no_space s.
Lemma spaces_none n : no_space (spaces n) = [].
Proof. unfold spaces. induction n; auto. Qed.
Lemma blanks_none s : no_space (blanks s) = [].
Proof. apply spaces_none. Qed.
Lemma print_lines_shows lines : forall indent, all_file (print_lines indent lines) /\
  no_space (concat (map snd (print_lines indent lines))) = match lines with [] => [] | _ => no_space indent end ++ no_space (concat lines).
Proof.
  induction lines as [|l ls IH]; intros indent; cbn [print_lines map concat snd]; [split; [constructor|reflexivity]|]. destruct (IH (blanks indent)) as [F E]. split; [constructor; auto|]. rewrite !no_space_app, E.
  destruct ls; rewrite ?blanks_none; cbn [app]; now rewrite <- ?app_assoc.
Qed.
Lemma print_lines_rows lines : forall indent, Forall2 (fun p l => fst p = true /\ exists i, snd p = i ++ l /\ List.length i = List.length indent) (print_lines indent lines) lines.
Proof.
  induction lines as [|l ls IH]; intros indent; constructor; cbn [fst snd]; [split; eauto|]. specialize (IH (blanks indent)). rewrite (repeat_length 32%N (List.length indent) : List.length (blanks indent) = _) in IH. exact IH.
Qed.
(* with text, the indentation is there once *)
Lemma wrapped_shows w s indent width o : splits w -> width <> 0 -> wrapped_print w s indent width = Ok o ->
  all_file o /\ no_space (concat (map snd o)) = (match o with [] => [] | _ => no_space indent end) ++ no_space s /\ (nonblank s -> o <> []).
Proof.
  intros S W E. unfold wrapped_print in E. destruct (Z.eqb_spec width 0); [contradiction|]. apply bind_ok in E as (lines & E & Eo). injection Eo as <-.
  destruct (wrap_spec w s (width - Z.of_nat (List.length indent)) S) as [[_ E']|(_ & lines' & E' & H & _)]; [congruence|]. rewrite E in E'. injection E' as <-.
  destruct (print_lines_shows lines indent) as [F T]. split; auto. split.
  - rewrite T, H. destruct lines; reflexivity.
  - intros N. destruct lines; [|discriminate]. cbn in H. exfalso. apply N. now rewrite <- H.
Qed.
