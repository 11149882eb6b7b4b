(* Proofs about the header patterns of the structure parser. *)
From Coq Require Import Lia.
From Coq Require Import ZifyBool ZifyNat ZifyN.
From Verif Require Import PyBase PyBaseFacts NumModel IdModel LineModel DateModel RefModel TreeModel FixupModel StructModel.
From Verif Require Import NumSpec IdSpec LineSpec TreeSpec StructSpec NumProofs IdProofs LineProofs TreeProofs.
Local Open Scope Z_scope.

(** * Header patterns *)

Lemma lower_small c : is_lower_az c = true <-> small_letter c.
Proof. unfold is_lower_az, small_letter. lia. Qed.
Lemma upper_capital c : is_upper_az c = true <-> capital_letter c.
Proof. unfold is_upper_az, capital_letter. lia. Qed.

Lemma take_digits s : ascii_digits (take_while is_ascii_digit s).
Proof.
  induction s as [|c s IH]; cbn; [constructor|]. destruct (is_ascii_digit c) eqn:E; [|constructor].
  constructor; [now apply is_ascii_digit_range|exact IH].
Qed.
Lemma take_skip {A} (f : A -> bool) s : s = take_while f s ++ skipn (List.length (take_while f s)) s.
Proof. induction s as [|c s IH]; cbn; [reflexivity|]. destruct (f c); cbn; [now f_equal|reflexivity]. Qed.
Lemma skip_head {A} (f : A -> bool) s :
  match skipn (List.length (take_while f s)) s with [] => True | c :: _ => f c = false end.
Proof. induction s as [|c s IH]; cbn; [exact I|]. destruct (f c) eqn:E; cbn; [exact IH|exact E]. Qed.

Definition no_digit_first (t : pystr) : Prop := match t with [] => True | c :: _ => is_ascii_digit c = false end.

Lemma leading_number_spec s d r : leading_number s = Some (d, r) <->
  ascii_digits d /\ d <> [] /\ s = d ++ r /\ no_digit_first r.
Proof.
  unfold leading_number. split.
  - pose proof (take_digits s) as D. pose proof (take_skip is_ascii_digit s) as S.
    pose proof (skip_head is_ascii_digit s) as H. destruct (take_while is_ascii_digit s) as [|c t] eqn:E; [discriminate|].
    intros [= <- <-]. repeat split; auto. discriminate.
  - intros (D & N & -> & F). rewrite take_while_app by (auto using forallb_ascii).
    destruct d as [|c d]; [congruence|]. do 2 f_equal.
    change (skipn (List.length (c :: d)) ((c :: d) ++ r) = r).
    now rewrite skipn_app, skipn_all, Nat.sub_diag.
Qed.

Lemma chr_then_spec f after s c : chr_then f after s = Some c <-> exists t, s = c :: after ++ t /\ f c = true.
Proof.
  unfold chr_then. destruct s as [|x s]; [split; [discriminate|intros (t & H & _); discriminate]|].
  destruct (f x) eqn:F; cbn [andb].
  - destruct (startswith after s) eqn:E.
    + apply startswith_spec in E as [t ->]. split.
      * intros [= <-]. eauto.
      * intros (t' & [= -> _] & _). reflexivity.
    + split; [discriminate|]. intros (t & [= -> ->] & _). now rewrite startswith_app in E.
  - split; [discriminate|]. intros (t & [= -> ->] & F'). congruence.
Qed.
Lemma slash_chr_then_spec f after s c : slash_chr_then f after s = Some c <->
  exists t, s = 47%N :: c :: after ++ t /\ f c = true.
Proof.
  unfold slash_chr_then. destruct s as [|x s]; [split; [discriminate|intros (t & H & _); discriminate]|].
  destruct (N.eqb_spec x 47) as [->|N].
  - rewrite chr_then_spec. split; intros (t & H & F); exists t; (split; [congruence|exact F]).
  - split; [discriminate|]. intros (t & [= -> _] & _). congruence.
Qed.

Lemma startswith_cons_false c d p t : c <> d -> startswith (c :: p) (d :: t) = false.
Proof. intros H. cbn. destruct (N.eqb_spec c d); [congruence|reflexivity]. Qed.

Lemma digit_first_no c t : ~ (48 <= c <= 57)%N -> no_digit_first (c :: t).
Proof. intros H. cbn. destruct (is_ascii_digit c) eqn:E; [|reflexivity]. now apply is_ascii_digit_range in E. Qed.

Lemma match_numeric_spec s i : match_numeric s = Some i <->
  exists n l t, numbered i n l /\ s = i ++ u8 ". " ++ t.
Proof.
  unfold match_numeric. split.
  - destruct (leading_number s) as [[d r]|] eqn:E; [|discriminate].
    apply leading_number_spec in E as (D & N & -> & F).
    destruct (startswith (u8 ". ") r) eqn:E1.
    { intros [= <-]. apply startswith_spec in E1 as [t ->]. eexists _, _, t. split; [now constructor|reflexivity]. }
    destruct (chr_then is_lower_az (u8 ". ") r) as [c|] eqn:E2.
    { intros [= <-]. apply chr_then_spec in E2 as (t & -> & L). apply lower_small in L.
      eexists _, _, t. split; [now apply numbered_letter|now rewrite <- app_assoc]. }
    destruct (slash_chr_then is_lower_az (u8 ". ") r) as [c|] eqn:E3; [|discriminate].
    intros [= <-]. apply slash_chr_then_spec in E3 as (t & -> & L). apply lower_small in L.
    eexists _, _, t. split; [now apply numbered_slash|now rewrite <- app_assoc].
  - intros (n & l & t & H & ->). destruct H as [d D N|d c D N L|d c D N L].
    + rewrite (proj2 (leading_number_spec (d ++ u8 ". " ++ t) d (u8 ". " ++ t))).
      * now rewrite startswith_app.
      * repeat split; auto. 
    + rewrite (proj2 (leading_number_spec ((d ++ [c]) ++ u8 ". " ++ t) d (c :: u8 ". " ++ t))).
      * unfold small_letter in L. change (u8 ". ") with [46%N; 32%N] at 1. rewrite startswith_cons_false by lia.
        rewrite (proj2 (chr_then_spec is_lower_az (u8 ". ") (c :: u8 ". " ++ t) c)); [reflexivity|].
        exists t. split; [reflexivity|]. now apply lower_small.
      * repeat split; auto. 1: now rewrite <- app_assoc. apply digit_first_no. unfold small_letter in L. lia.
    + rewrite (proj2 (leading_number_spec ((d ++ [47%N; c]) ++ u8 ". " ++ t) d (47%N :: c :: u8 ". " ++ t))).
      * change (u8 ". ") with [46%N; 32%N] at 1. rewrite startswith_cons_false by lia.
        cbn [chr_then]. replace (is_lower_az 47) with false by reflexivity. cbn [andb].
        rewrite (proj2 (slash_chr_then_spec is_lower_az (u8 ". ") (47%N :: c :: u8 ". " ++ t) c)); [reflexivity|].
        exists t. split; [reflexivity|]. now apply lower_small.
      * repeat split; auto. now rewrite <- app_assoc.
Qed.

Lemma match_paragraph_spec s i : match_paragraph s = Some i <->
  exists n l t, numbered i n l /\ ~ In 47%N i /\ s = u8 "(" ++ i ++ u8 ") " ++ t.
Proof.
  assert (ND : forall d, ascii_digits d -> ~ In 47%N d).
  { intros d D. unfold ascii_digits in D. rewrite Forall_forall in D. intros H. apply D in H. lia. }
  unfold match_paragraph. split.
  - destruct (startswith (u8 "(") s) eqn:E0; [|discriminate]. apply startswith_spec in E0 as [s' ->].
    cbn [skipn app]. change (skipn 1 (u8 "(" ++ s')) with s'.
    destruct (leading_number s') as [[d r]|] eqn:E; [|discriminate].
    apply leading_number_spec in E as (D & N & -> & F).
    destruct (startswith (u8 ") ") r) eqn:E1.
    { intros [= <-]. apply startswith_spec in E1 as [t ->]. eexists _, _, t.
      split; [now constructor|split; [auto|reflexivity]]. }
    destruct (chr_then is_lower_az (u8 ") ") r) as [c|] eqn:E2; [|discriminate].
    intros [= <-]. apply chr_then_spec in E2 as (t & -> & L). apply lower_small in L.
    eexists _, _, t. split; [now apply numbered_letter|]. split.
    + rewrite in_app_iff. intros [H|[H|[]]]; [now apply ND in H|]. unfold small_letter in L. lia.
    + now rewrite <- app_assoc.
  - intros (n & l & t & H & S & ->). rewrite startswith_app.
    change (skipn 1 (u8 "(" ++ i ++ u8 ") " ++ t)) with (i ++ u8 ") " ++ t).
    destruct H as [d D N|d c D N L|d c D N L].
    + rewrite (proj2 (leading_number_spec (d ++ u8 ") " ++ t) d (u8 ") " ++ t))).
      * now rewrite startswith_app.
      * repeat split; auto. 
    + rewrite (proj2 (leading_number_spec ((d ++ [c]) ++ u8 ") " ++ t) d (c :: u8 ") " ++ t))).
      * unfold small_letter in L. change (u8 ") ") with [41%N; 32%N] at 1. rewrite startswith_cons_false by lia.
        rewrite (proj2 (chr_then_spec is_lower_az (u8 ") ") (c :: u8 ") " ++ t) c)); [reflexivity|].
        exists t. split; [reflexivity|]. now apply lower_small.
      * repeat split; auto. 1: now rewrite <- app_assoc. apply digit_first_no. unfold small_letter in L. lia.
    + exfalso. apply S. apply in_app_iff. right. now left.
Qed.

Lemma match_alphabetic_spec p s i : match_alphabetic p s = Some i ->
  ((exists c, small_letter c /\ i = p ++ [c]) \/ i = u8 "ny" \/ i = u8 "sz") /\
  exists t, s = i ++ u8 ") " ++ t.
Proof.
  unfold match_alphabetic. 
  set (other := if startswith (u8 "ny) ") s then Some (u8 "ny") else if startswith (u8 "sz) ") s then Some (u8 "sz") else None).
  assert (O : other = Some i -> ((exists c, small_letter c /\ i = p ++ [c]) \/ i = u8 "ny" \/ i = u8 "sz") /\
             exists t, s = i ++ u8 ") " ++ t).
  { unfold other. destruct (startswith (u8 "ny) ") s) eqn:E1.
    - intros [= <-]. apply startswith_spec in E1 as [t ->]. split; [auto|]. exists t. reflexivity.
    - destruct (startswith (u8 "sz) ") s) eqn:E2; [|discriminate].
      intros [= <-]. apply startswith_spec in E2 as [t ->]. split; [auto|]. exists t. reflexivity. }
  clearbody other. destruct (startswith p s) eqn:E; [|exact O].
  destruct (chr_then is_lower_az (u8 ") ") (skipn (List.length p) s)) as [c|] eqn:E1; [|exact O].
  intros [= <-]. apply chr_then_spec in E1 as (t & E1 & L). apply lower_small in L.
  apply startswith_spec in E as [s' ->]. rewrite skipn_app, skipn_all, Nat.sub_diag in E1. cbn in E1. subst s'.
  split; [left; eauto|]. exists t. now rewrite <- app_assoc.
Qed.
Lemma match_alphabetic_letter p c t : small_letter c -> match_alphabetic p ((p ++ [c]) ++ u8 ") " ++ t) = Some (p ++ [c]).
Proof.
  intros L. unfold match_alphabetic. rewrite <- app_assoc, startswith_app, skipn_app, skipn_all, Nat.sub_diag.
  change ([] ++ skipn 0 ([c] ++ u8 ") " ++ t)) with (c :: u8 ") " ++ t).
  rewrite (proj2 (chr_then_spec is_lower_az (u8 ") ") (c :: u8 ") " ++ t) c)); [reflexivity|].
  exists t. split; [reflexivity|]. now apply lower_small.
Qed.

Lemma match_subtitle_spec s i : match_subtitle s = Some i <->
  exists d t, ascii_digits d /\ d <> [] /\ s = i ++ u8 ". " ++ t /\
    (i = d \/ exists c, capital_letter c /\ i = d ++ [47%N; c]).
Proof.
  unfold match_subtitle. split.
  - destruct (leading_number s) as [[d r]|] eqn:E; [|discriminate].
    apply leading_number_spec in E as (D & N & -> & F).
    destruct (startswith (u8 ". ") r) eqn:E1.
    { intros [= <-]. apply startswith_spec in E1 as [t ->]. exists d, t. auto. }
    destruct (slash_chr_then is_upper_az (u8 ". ") r) as [c|] eqn:E3; [|discriminate].
    intros [= <-]. apply slash_chr_then_spec in E3 as (t & -> & L). apply upper_capital in L.
    exists d, t. repeat split; auto. 2: right; eauto. now rewrite <- app_assoc.
  - intros (d & t & D & N & -> & [->|(c & L & ->)]).
    + rewrite (proj2 (leading_number_spec (d ++ u8 ". " ++ t) d (u8 ". " ++ t))).
      * now rewrite startswith_app.
      * repeat split; auto. 
    + rewrite (proj2 (leading_number_spec ((d ++ [47%N; c]) ++ u8 ". " ++ t) d (47%N :: c :: u8 ". " ++ t))).
      * change (u8 ". ") with [46%N; 32%N] at 1. rewrite startswith_cons_false by lia.
        rewrite (proj2 (slash_chr_then_spec is_upper_az (u8 ". ") (47%N :: c :: u8 ". " ++ t) c)); [reflexivity|].
        exists t. split; [reflexivity|]. now apply upper_capital.
      * repeat split; auto. now rewrite <- app_assoc.
Qed.
