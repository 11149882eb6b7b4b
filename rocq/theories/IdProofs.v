From Coq Require Import ZifyBool ZifyNat ZifyN.
From Coq Require Import Sorting.Sorted.
From Verif Require Import PyBase PyBaseFacts NumModel NumSpec NumProofs IdModel IdSpec Unicode.
Local Open Scope Z_scope.

(** * Decimal digits and int() *)

Lemma decimal_sweep :
  forallb (fun s => forallb (fun i => let c := (s + N.of_nat i)%N in
     negb (isspace_chr c) && (if (c <? 128)%N then (48 <=? c)%N && (c <=? 57)%N else true) && isdigit_chr c)
     (seq 0 10)) decimal_starts = true.
Proof. vm_compute. reflexivity. Qed.

Lemma decimal_value_in c v : decimal_value c = Some v ->
  (exists s, In s decimal_starts /\ c = (s + N.of_nat (N.to_nat (c - s)))%N /\ (N.to_nat (c - s) < 10)%nat).
Proof.
  unfold decimal_value. destruct (N.ltb_spec c 128) as [H|H].
  - destruct ((48 <=? c)%N && (c <=? 57)%N) eqn:E; [|discriminate]. intros _.
    exists 48%N. split; [|lia]. vm_compute. auto.
  - destruct (List.find _ _) as [s|] eqn:F; [|discriminate]. intros _.
    apply find_some in F as [F1 F2]. exists s. split; [exact F1|]. lia.
Qed.

Lemma decimal_value_facts c v : decimal_value c = Some v ->
  isspace_chr c = false /\ isdigit_chr c = true /\ ((c <? 128)%N = true -> (48 <= c <= 57)%N).
Proof.
  intros H. apply decimal_value_in in H as (s & Hs & E & Hlt).
  pose proof decimal_sweep as S. rewrite forallb_forall in S. specialize (S s Hs).
  rewrite forallb_forall in S. specialize (S (N.to_nat (c - s)) ltac:(apply in_seq; lia)).
  cbv beta zeta in S. rewrite <- E in S.
  apply andb_true_iff in S as [S S3]. apply andb_true_iff in S as [S1 S2].
  apply negb_true_iff in S1. split; [exact S1|]. split; [exact S3|].
  intros Hc. rewrite Hc in S2. lia.
Qed.

Lemma int_space_good c : good_digit c -> int_space c = false.
Proof.
  intros [v H]. apply decimal_value_facts in H as (H1 & _ & H2). unfold int_space. rewrite H1.
  rewrite andb_false_r. destruct (N.ltb_spec c 128); [specialize (H2 eq_refl)|]; lia.
Qed.

Lemma good_not_sign c : good_digit c -> c <> 45%N /\ c <> 43%N /\ c <> 95%N.
Proof.
  intros [v H]. apply decimal_value_facts in H as (_ & _ & H2).
  destruct (N.ltb_spec c 128); [specialize (H2 eq_refl)|]; lia.
Qed.

Lemma number_of_acc d : Forall good_digit d -> forall prev acc, (d <> [] \/ prev = true) ->
  int_digits prev acc d =
  Ok (Z.to_N (fold_left (fun a c => match decimal_value c with Some v => a * 10 + Z.of_N v | None => a end) d (Z.of_N acc))).
Proof.
  induction 1 as [|c d Hc Hd IH]; intros prev acc Hp; simpl.
  - destruct Hp as [Hp| ->]; [congruence|]. now rewrite N2Z.id.
  - destruct (good_not_sign c Hc) as (_ & _ & H95). replace (c =? 95)%N with false by lia.
    destruct Hc as [v Hv]. rewrite Hv. rewrite IH by (now right). do 3 f_equal. lia.
Qed.

Lemma number_of_nonneg d : 0 <= number_of d.
Proof.
  unfold number_of. assert (G : forall a, 0 <= a ->
    0 <= fold_left (fun a c => match decimal_value c with Some v => a * 10 + Z.of_N v | None => a end) d a).
  { induction d as [|c d IH]; intros a Ha; simpl; [exact Ha|]. apply IH.
    destruct (decimal_value c); lia. }
  apply G. lia.
Qed.

Lemma py_int_number d : Forall good_digit d -> d <> [] -> py_int d = Ok (number_of d).
Proof.
  intros Hd Hne. unfold py_int.
  assert (E1 : drop_while int_space d = d).
  { apply drop_while_none. destruct d as [|c t]; [exact I|]. inversion Hd; subst. now apply int_space_good. }
  rewrite E1.
  assert (E2 : drop_while int_space (rev d) = rev d).
  { apply drop_while_none. apply Forall_rev in Hd. destruct (rev d) as [|c t]; [exact I|].
    inversion Hd; subst. now apply int_space_good. }
  rewrite E2, rev_involutive. destruct d as [|c t]; [congruence|].
  inversion Hd; subst. destruct (good_not_sign c) as (H45 & H43 & _); [assumption|].
  replace (c =? 45)%N with false by lia. replace (c =? 43)%N with false by lia.
  rewrite number_of_acc by (auto; now left). cbn [bind].
  pose proof (number_of_nonneg (c :: t)). unfold number_of in *. f_equal.
  rewrite Z2N.id; [reflexivity | exact H].
Qed.

(* converse: for strings of isdigit characters int() succeeds only if all are good *)
Lemma int_digits_good d : forall prev acc r, all_digits d ->
  int_digits prev acc d = Ok r -> Forall good_digit d.
Proof.
  induction d as [|c d IH]; intros prev acc r Hd H; [constructor|].
  inversion Hd; subst. simpl in H.
  destruct (N.eqb_spec c 95) as [->|Hc]; [discriminate|].
  destruct (decimal_value c) as [v|] eqn:E; [|discriminate].
  constructor; [now exists v | eapply IH; eauto].
Qed.

(** * split_identifier_to_parts *)

Lemma loop_run s1 : forall s2 res cur last,
  Forall (fun c => isdigit_chr c = last) s1 ->
  split_id_loop (s1 ++ s2) res cur last = split_id_loop s2 res (cur ++ s1) last.
Proof.
  induction s1 as [|c s1 IH]; intros s2 res cur last H; simpl; [now rewrite app_nil_r|].
  inversion H; subst. rewrite Bool.eqb_reflx. rewrite IH by assumption.
  now rewrite <- app_assoc.
Qed.

Lemma reads_loop s ps : reads_as s ps -> decimal_id s -> forall res,
  split_id_loop s res [] false = Ok (res ++ ps).
Proof.
  induction 1 as [|t Hne Ht|t d rest ps Ht Hd Hdne Hrest Hr IH]; intros Hdec res.
  - simpl. now rewrite app_nil_r.
  - rewrite <- (app_nil_r t) at 1. rewrite loop_run by assumption. simpl.
    destruct t as [|c t]; [congruence|reflexivity].
  - apply Forall_app in Hdec as [_ Hdec]. apply Forall_app in Hdec as [Hdd Hdr].
    rewrite loop_run by assumption. rewrite app_nil_l.
    destruct d as [|c d']; [congruence|].
    assert (Hgood : Forall good_digit (c :: d')).
    { apply Forall_forall. intros x Hx. unfold all_digits in Hd.
      rewrite Forall_forall in Hd, Hdd. auto. }
    inversion Hd as [|? ? Hc Hd']; subst.
    cbn [app split_id_loop]. rewrite Hc. cbn [Bool.eqb bind flush_part].
    rewrite loop_run by assumption. cbn [app].
    assert (Hfl : flush_part true (c :: d') = Ok (PInt (number_of (c :: d')))).
    { unfold flush_part. rewrite py_int_number by (auto; discriminate). reflexivity. }
    destruct rest as [|x rest'].
    + inversion Hr; subst.
      * cbn [split_id_loop]. rewrite Hfl. cbn [bind]. rewrite <- app_assoc. reflexivity.
      * congruence.
      * destruct t0; [destruct d; [congruence|discriminate] | discriminate].
    + cbn [split_id_loop]. rewrite Hrest. cbn [Bool.eqb]. rewrite Hfl. cbn [bind].
      specialize (IH Hdr ((res ++ [PStr t]) ++ [PInt (number_of (c :: d'))])).
      cbn [split_id_loop] in IH. rewrite Hrest in IH. cbn [Bool.eqb app] in IH.
      rewrite IH. rewrite <- !app_assoc. reflexivity.
Qed.

Lemma split_reads s ps : decimal_id s -> reads_as s ps -> split_identifier_to_parts s = Ok ps.
Proof. intros Hd Hr. unfold split_identifier_to_parts. now rewrite (reads_loop s ps Hr Hd). Qed.

Lemma reads_exists s : exists ps, reads_as s ps.
Proof.
  induction s as [s IH] using (induction_ltof1 _ (@List.length N)). unfold ltof in IH.
  set (f := fun c => negb (isdigit_chr c)).
  pose proof (take_drop_while f s) as E1. set (t := take_while f s) in *. set (r := drop_while f s) in *.
  assert (Ht : no_digits t).
  { unfold no_digits. apply Forall_forall. intros x Hx. pose proof (take_while_forall f s) as H.
    rewrite forallb_forall in H. specialize (H x Hx). unfold f in H. now apply negb_true_iff. }
  assert (Hr : match r with [] => True | c :: _ => isdigit_chr c = true end).
  { unfold r. clear. induction s as [|x s IH]; simpl; [exact I|]. destruct (f x) eqn:E; [exact IH|].
    unfold f in E. now apply negb_false_iff. }
  destruct r as [|c r'] eqn:Er.
  - rewrite app_nil_r in E1. destruct s as [|x s']; [exists []; constructor|].
    exists [PStr t]. rewrite <- E1. constructor; [rewrite E1; discriminate|assumption].
  - pose proof (take_drop_while isdigit_chr (c :: r')) as E2.
    set (d := take_while isdigit_chr (c :: r')) in *.
    set (rest := drop_while isdigit_chr (c :: r')) in *.
    assert (Hd : all_digits d).
    { unfold all_digits. apply Forall_forall. intros x Hx.
      pose proof (take_while_forall isdigit_chr (c :: r')) as H.
      rewrite forallb_forall in H. auto. }
    assert (Hdne : d <> []) by (unfold d; simpl; rewrite Hr; discriminate).
    assert (Hrest : match rest with [] => True | c :: _ => isdigit_chr c = false end).
    { unfold rest. clear. induction (c :: r') as [|x s IH]; simpl; [exact I|].
      destruct (isdigit_chr x) eqn:E; [exact IH|exact E]. }
    destruct (IH rest) as [ps Hps].
    { assert (L : List.length s = (List.length t + (List.length d + List.length rest))%nat).
      { rewrite <- E1, app_length, <- E2, app_length. reflexivity. }
      destruct d; [congruence|]. simpl in L. lia. }
    exists (PStr t :: PInt (number_of d) :: ps). rewrite <- E1, <- E2. now constructor.
Qed.

(* the type of the parts alternates *)
Fixpoint alternates (text : bool) (ps : list idpart) : Prop :=
  match ps with
  | [] => True
  | PStr _ :: t => text = true /\ alternates false t
  | PInt _ :: t => text = false /\ alternates true t
  end.

Lemma alternates_snoc ps : forall b p,
  alternates b ps ->
  (match p with PStr _ => true | PInt _ => false end) = (if Nat.even (List.length ps) then b else negb b) ->
  alternates b (ps ++ [p]).
Proof.
  induction ps as [|q ps IH]; intros b p Ha Hp.
  - simpl in *. destruct p; auto.
  - cbn [app List.length] in *. rewrite Nat.even_succ in Hp. rewrite <- Nat.negb_even in Hp.
    destruct q; destruct Ha as [-> Ha]; split; auto; apply IH; auto;
      destruct (Nat.even (List.length ps)); simpl in *; auto.
Qed.

Lemma loop_alternates s : forall res cur last ps,
  alternates true res -> Nat.even (List.length res) = negb last ->
  split_id_loop s res cur last = Ok ps -> alternates true ps.
Proof.
  assert (F : forall res cur last p, alternates true res -> Nat.even (List.length res) = negb last ->
     flush_part last cur = Ok p -> alternates true (res ++ [p])).
  { intros res cur last p Ha He Hf. apply alternates_snoc; auto. rewrite He.
    destruct last; simpl in *.
    - apply bind_ok in Hf as (n & _ & [= <-]). reflexivity.
    - injection Hf as <-. reflexivity. }
  induction s as [|c s IH]; intros res cur last ps Ha He H; cbn [split_id_loop] in H.
  - destruct cur; [injection H as <-; assumption|].
    apply bind_ok in H as (p & Hp & [= <-]). eapply F; eauto.
  - destruct (Bool.eqb (isdigit_chr c) last) eqn:E.
    + eapply IH; eauto.
    + apply bind_ok in H as (p & Hp & H).
      eapply IH in H; eauto.
      rewrite app_length, Nat.add_comm. cbn [List.length plus]. rewrite Nat.even_succ, <- Nat.negb_even, He.
      apply eqb_false_iff in E. destruct (isdigit_chr c), last; simpl; congruence.
Qed.

Lemma split_alternates s ps : split_identifier_to_parts s = Ok ps -> alternates true ps.
Proof. apply loop_alternates; simpl; auto. Qed.

Lemma tuple_lt_alternates a : forall b t, alternates t a -> alternates t b ->
  exists r, tuple_lt a b = Ok r.
Proof.
  induction a as [|x a IH]; intros [|y b] t Ha Hb; simpl; eauto.
  destruct (idpart_eqb x y) eqn:E.
  - destruct x, y; simpl in *; try discriminate; destruct Ha as [_ Ha], Hb as [_ Hb]; eauto.
  - destruct x, y; simpl in *; eauto; destruct Ha as [Ha1 Ha], Hb as [Hb1 Hb]; congruence.
Qed.

Lemma split_errors s e : split_identifier_to_parts s = Err e -> e = ValueError.
Proof.
  unfold split_identifier_to_parts. generalize (@nil idpart) at 1. generalize (@nil N) at 1.
  generalize false.
  assert (P : forall x e, py_int x = Err e -> e = ValueError).
  { intros x e0. unfold py_int.
    assert (D : forall s p a e1, int_digits p a s = Err e1 -> e1 = ValueError).
    { induction s0 as [|c s0 IH]; intros p a e1; simpl.
      - destruct p; congruence.
      - destruct (c =? 95)%N; [destruct p; [apply IH|congruence]|].
        destruct (decimal_value c); [apply IH|congruence]. }
    set (s2 := rev _). destruct s2 as [|c t]; [congruence|].
    destruct (c =? 45)%N; [|destruct (c =? 43)%N];
      destruct (int_digits _ _ _) eqn:E; simpl; try discriminate; intros [= <-]; eauto. }
  assert (F : forall l c e, flush_part l c = Err e -> e = ValueError).
  { intros [] c e0; simpl; [|discriminate]. destruct (py_int c) eqn:E; simpl; [discriminate|].
    intros [= <-]; eauto. }
  induction s as [|c s IH]; intros last cur res; cbn [split_id_loop].
  - destruct cur; [discriminate|]. destruct (flush_part _ _) eqn:E; simpl; [discriminate|].
    intros [= <-]; eauto.
  - destruct (Bool.eqb _ _); [apply IH|].
    destruct (flush_part _ _) eqn:E; simpl; [apply IH|]. intros [= <-]; eauto.
Qed.

Lemma identifier_less_errors a b e : identifier_less a b = Err e -> e = ValueError.
Proof.
  unfold identifier_less. destruct (split_identifier_to_parts a) as [pa|ea] eqn:Ea; simpl.
  - destruct (split_identifier_to_parts b) as [pb|eb] eqn:Eb; simpl.
    + intros H. destruct (tuple_lt_alternates pa pb true) as [r Hr]; eauto using split_alternates.
      congruence.
    + intros [= <-]. eapply split_errors; eauto.
  - intros [= <-]. eapply split_errors; eauto.
Qed.

Lemma idpart_eqb_eq x y : idpart_eqb x y = true <-> x = y.
Proof.
  destruct x, y; simpl; split; intro H; try discriminate.
  - apply str_eqb_eq in H. now f_equal.
  - injection H as ->. apply str_eqb_refl.
  - apply Z.eqb_eq in H. now f_equal.
  - injection H as ->. apply Z.eqb_refl.
Qed.

Lemma tuple_lt_before a : forall b, tuple_lt a b = Ok true -> before a b.
Proof.
  induction a as [|x a IH]; intros [|y b] H; simpl in H; try discriminate.
  - constructor.
  - destruct (idpart_eqb x y) eqn:E.
    + apply idpart_eqb_eq in E; subst. constructor; auto.
    + destruct x, y; simpl in H; try discriminate; injection H as H; constructor; auto. lia.
Qed.

Lemma before_irrefl a : ~ before a a.
Proof.
  induction a as [|x a IH]; intros H; inversion H; subst; auto; try lia.
  rewrite str_ltb_irrefl in *. discriminate.
Qed.

Lemma before_trans a : forall b c, before a b -> before b c -> before a c.
Proof.
  induction a as [|x a IH]; intros b c H1 H2.
  - inversion H1; subst. inversion H2; subst; constructor.
  - inversion H1; subst; inversion H2; subst; try (constructor; eauto; fail).
    + constructor; eapply str_ltb_trans; eauto.
    + constructor. lia.
Qed.

Lemma before_tuple_lt a : forall b, before a b -> tuple_lt a b = Ok true.
Proof.
  induction 1 as [x b|s t a b H|n m a b H|x a b H IH]; simpl; auto.
  - destruct (str_eqb s t) eqn:E.
    + apply str_eqb_eq in E; subst. rewrite str_ltb_irrefl in H. discriminate.
    + now rewrite H.
  - replace (n =? m) with false by lia. f_equal. lia.
  - replace (idpart_eqb x x) with true; auto. symmetry. now apply idpart_eqb_eq.
Qed.

Lemma before_total a : forall b t, alternates t a -> alternates t b ->
  before a b \/ a = b \/ before b a.
Proof.
  induction a as [|x a IH]; intros [|y b] t Ha Hb; auto.
  - left; constructor.
  - right; right; constructor.
  - destruct x as [s|n], y as [s'|m]; simpl in Ha, Hb; destruct Ha as [Ht Ha], Hb as [Ht' Hb];
      try congruence.
    + destruct (str_eq_dec s s') as [->|Hne].
      * destruct (IH b false Ha Hb) as [H|[->|H]]; [left|right;left|right;right]; auto; now constructor.
      * destruct (str_ltb s s') eqn:E1; [left; now constructor|].
        destruct (str_ltb s' s) eqn:E2; [right; right; now constructor|].
        exfalso. apply Hne. now apply str_ltb_total.
    + destruct (Z.lt_trichotomy n m) as [H|[->|H]]; [left; now constructor| |right; right; now constructor].
      destruct (IH b true Ha Hb) as [H|[->|H]]; [left|right;left|right;right]; auto; now constructor.
Qed.

Lemma reads_alternates s ps : reads_as s ps -> alternates true ps.
Proof. induction 1; simpl; auto. Qed.

Lemma reads_unique s ps qs : decimal_id s -> reads_as s ps -> reads_as s qs -> ps = qs.
Proof. intros Hd H1 H2. apply split_reads in H1, H2; auto. congruence. Qed.

Lemma identifier_less_spec a b pa pb :
  decimal_id a -> decimal_id b -> reads_as a pa -> reads_as b pb ->
  exists r, identifier_less a b = Ok r /\ (r = true <-> before pa pb).
Proof.
  intros Ha Hb Ra Rb. unfold identifier_less.
  rewrite (split_reads a pa), (split_reads b pb) by assumption. cbn [bind].
  destruct (tuple_lt_alternates pa pb true) as [r Hr]; eauto using reads_alternates.
  exists r. split; [exact Hr|]. split; intros H.
  - subst r. now apply tuple_lt_before.
  - apply before_tuple_lt in H. congruence.
Qed.

Lemma identifier_less_total a b : decimal_id a -> decimal_id b -> exists r, identifier_less a b = Ok r.
Proof.
  intros Ha Hb. destruct (reads_exists a) as [pa Ra], (reads_exists b) as [pb Rb].
  destruct (identifier_less_spec a b pa pb) as (r & H & _); eauto.
Qed.

Lemma identifier_less_true a b pa pb :
  decimal_id a -> decimal_id b -> reads_as a pa -> reads_as b pb ->
  identifier_less a b = Ok true <-> before pa pb.
Proof.
  intros Ha Hb Ra Rb. destruct (identifier_less_spec a b pa pb) as (r & -> & H); auto.
  rewrite <- H. split; congruence.
Qed.

Lemma identifier_less_irrefl a : identifier_less a a <> Ok true.
Proof.
  unfold identifier_less. destruct (split_identifier_to_parts a) as [p|e]; simpl; [|discriminate].
  intros H. apply tuple_lt_before in H. now apply before_irrefl in H.
Qed.

Lemma identifier_less_inv a b : identifier_less a b = Ok true ->
  exists pa pb, split_identifier_to_parts a = Ok pa /\ split_identifier_to_parts b = Ok pb /\ before pa pb.
Proof.
  unfold identifier_less. intros H. apply bind_ok in H as (pa & Ha & H).
  apply bind_ok in H as (pb & Hb & H). exists pa, pb. repeat split; auto. now apply tuple_lt_before.
Qed.

Lemma identifier_less_trans a b c :
  identifier_less a b = Ok true -> identifier_less b c = Ok true -> identifier_less a c = Ok true.
Proof.
  intros H1 H2. apply identifier_less_inv in H1 as (pa & pb & Ea & Eb & H1).
  apply identifier_less_inv in H2 as (pb' & pc & Eb' & Ec & H2).
  assert (pb' = pb) by congruence; subst. unfold identifier_less. rewrite Ea, Ec. cbn [bind].
  apply before_tuple_lt. eapply before_trans; eauto.
Qed.

Lemma identifier_less_asym a b : identifier_less a b = Ok true -> identifier_less b a <> Ok true.
Proof.
  intros H1 H2. apply (identifier_less_irrefl a). eapply identifier_less_trans; eauto.
Qed.

Lemma identifier_incomparable a b pa pb :
  decimal_id a -> decimal_id b -> reads_as a pa -> reads_as b pb ->
  (identifier_less a b = Ok false /\ identifier_less b a = Ok false) <-> pa = pb.
Proof.
  intros Ha Hb Ra Rb.
  destruct (identifier_less_spec a b pa pb) as (r1 & -> & H1); auto.
  destruct (identifier_less_spec b a pb pa) as (r2 & -> & H2); auto.
  split.
  - intros [[= ->] [= ->]].
    destruct (before_total pa pb true) as [H|[H|H]]; eauto using reads_alternates.
    + apply H1 in H; discriminate.
    + apply H2 in H; discriminate.
  - intros ->. split; f_equal.
    + destruct r1; auto. exfalso. apply (before_irrefl pb). now apply H1.
    + destruct r2; auto. exfalso. apply (before_irrefl pb). now apply H2.
Qed.

(** * Numeric identifiers *)

Lemma ascii_digit_good c : (48 <= c <= 57)%N -> good_digit c /\ isdigit_chr c = true.
Proof.
  intros H. unfold good_digit, decimal_value, isdigit_chr.
  replace (c <? 128)%N with true by lia. replace ((48 <=? c)%N && (c <=? 57)%N) with true by lia.
  split; [eauto|reflexivity].
Qed.

Lemma dec_all_digits n : all_digits (dec_N n).
Proof.
  unfold all_digits. eapply Forall_impl; [|apply dec_N_digits]. intros c H. now apply ascii_digit_good.
Qed.
Lemma dec_good n : Forall good_digit (dec_N n).
Proof. eapply Forall_impl; [|apply dec_N_digits]. intros c H. now apply ascii_digit_good. Qed.

Lemma number_of_dec n : number_of (dec_N n) = Z.of_N n.
Proof.
  pose proof (py_int_dec n) as H. rewrite py_int_number in H by auto using dec_good, dec_N_nonempty.
  congruence.
Qed.

Lemma dec_no_slash n c : ~ (48 <= c <= 57)%N -> ~ In c (dec_N n).
Proof.
  intros H Hin. pose proof (dec_N_digits n) as D. unfold ascii_digits in D. rewrite Forall_forall in D.
  specialize (D c Hin). contradiction.
Qed.

Lemma decimal_id_app a b : decimal_id a -> decimal_id b -> decimal_id (a ++ b).
Proof. intros; apply Forall_app; auto. Qed.
Lemma decimal_id_dec n : decimal_id (dec_N n).
Proof. eapply Forall_impl; [|apply dec_good]. auto. Qed.
Lemma no_digits_decimal t : no_digits t -> decimal_id t.
Proof. apply Forall_impl. intros c H1 H2. congruence. Qed.

Lemma reads_dec_text n t : no_digits t ->
  reads_as (dec_N n ++ t) (PStr [] :: PInt (Z.of_N n) :: match t with [] => [] | _ => [PStr t] end).
Proof.
  intros Ht. rewrite <- (number_of_dec n). change (dec_N n ++ t) with ([] ++ dec_N n ++ t).
  constructor; auto using dec_all_digits, dec_N_nonempty; try constructor.
  - destruct t; [exact I|]. inversion Ht; assumption.
  - destruct t; constructor; [discriminate|assumption].
Qed.

Definition letter_text (slash : bool) (l : option N) : pystr :=
  match l with None => [] | Some c => (if slash then [47%N] else []) ++ [c] end.

Lemma numeric_id_eq s n l : numeric_id s n l = dec_N n ++ letter_text s l.
Proof. reflexivity. Qed.

Lemma letter_text_nodigits s l : plain_letter l -> no_digits (letter_text s l).
Proof.
  destruct l as [c|]; simpl; [|constructor]. intros [H _].
  destruct s; repeat constructor; auto.
Qed.

Lemma remove_chr_notin c s : ~ In c s -> remove_chr c s = s.
Proof.
  induction s as [|x s IH]; simpl; intros H; [reflexivity|].
  unfold remove_chr in *. simpl. destruct (N.eqb_spec x c) as [->|]; [exfalso; auto|].
  simpl. f_equal. apply IH. tauto.
Qed.

Lemma remove_slash_numeric s n l : plain_letter l ->
  remove_chr 47 (numeric_id s n l) = dec_N n ++ letter_text false l.
Proof.
  intros Hl. rewrite numeric_id_eq. unfold remove_chr. rewrite filter_app.
  change (List.filter (fun x => negb (x =? 47)%N) (dec_N n)) with (remove_chr 47 (dec_N n)).
  rewrite remove_chr_notin by (apply dec_no_slash; lia). f_equal.
  destruct l as [c|]; [|reflexivity]. destruct Hl as [_ Hc].
  destruct s; simpl; destruct (N.eqb_spec c 47); try congruence; reflexivity.
Qed.

Lemma str_isdigit_numeric n l : plain_letter l ->
  str_isdigit (dec_N n ++ letter_text false l) = match l with None => true | Some _ => false end.
Proof.
  intros Hl. destruct l as [c|].
  - destruct Hl as [Hc _]. simpl. destruct (dec_N n ++ [c]) as [|y t] eqn:E; [reflexivity|].
    rewrite <- E. unfold str_isdigit. rewrite E, <- E. rewrite forallb_app. simpl. rewrite Hc.
    now rewrite andb_false_r.
  - simpl. rewrite app_nil_r. apply ascii_digits_isdigit; auto using dec_N_digits, dec_N_nonempty.
Qed.

Lemma drop_last_snoc {A} (s : list A) x : drop_last (s ++ [x]) = s.
Proof. unfold drop_last. apply removelast_last. Qed.
Lemma last_chr_snoc {A} (s : list A) x : last_chr (s ++ [x]) = Ok x.
Proof. unfold last_chr. now rewrite rev_app_distr. Qed.

Lemma dec_snoc_inj n m x y : dec_N n ++ [x] = dec_N m ++ [y] <-> n = m /\ x = y.
Proof.
  split.
  - intros H. apply app_inj_tail in H as [H ->]. apply dec_N_inj in H. auto.
  - intros [-> ->]; reflexivity.
Qed.

Lemma next_letter_single x y : is_next_letter_hun [x] [y] = true <-> y = (x + 1)%N.
Proof.
  unfold is_next_letter_hun.
  assert (E : existsb (fun '(a, b) => str_eqb a [x] && str_eqb b [y]) special_next_letter_pairs = false).
  { destruct (existsb _ _) eqn:E; [|reflexivity]. apply existsb_exists in E as ((a, b) & Hin & E).
    apply andb_true_iff in E as [E1 E2]. apply str_eqb_eq in E1, E2. subst.
    exfalso.
    assert (S : forallb (fun '(a, b) => negb ((List.length a =? 1)%nat && (List.length b =? 1)%nat))
       special_next_letter_pairs = true) by reflexivity.
    rewrite forallb_forall in S. specialize (S _ Hin). discriminate S. }
  rewrite E. lia.
Qed.

Lemma numeric_next_spec s s' n l m k : plain_letter l -> plain_letter k ->
  exists r, is_next_numeric_identifier (numeric_id s n l) (numeric_id s' m k) = Ok r /\
            (r = true <-> numeric_successor n l m k).
Proof.
  intros Hl Hk. unfold is_next_numeric_identifier.
  rewrite !remove_slash_numeric by assumption. rewrite !str_isdigit_numeric by assumption.
  destruct l as [c|], k as [d|]; cbn [letter_text app].
  - rewrite !drop_last_snoc, !last_chr_snoc. cbn [bind].
    destruct (str_eqb (dec_N n) (dec_N m)) eqn:E.
    + apply str_eqb_eq, dec_N_inj in E. subst m. eexists; split; [reflexivity|].
      rewrite next_letter_single. split.
      * intros ->. constructor.
      * intros H. inversion H; subst; auto.
    + apply str_eqb_neq in E. eexists; split; [reflexivity|]. split; [discriminate|].
      intros H. inversion H; subst; congruence.
  - rewrite drop_last_snoc, app_nil_r, !py_int_dec. cbn [bind].
    eexists; split; [reflexivity|]. split.
    + intros H. assert (m = n + 1)%N by lia. subst. constructor.
    + intros H. inversion H; subst. lia.
  - rewrite app_nil_r. eexists; split; [reflexivity|]. rewrite orb_true_iff, !str_eqb_eq.
    cbn [letter_text app]. rewrite !dec_snoc_inj. split.
    + intros [[-> ->]|[-> ->]]; constructor; auto.
    + intros H. inversion H; subst. intuition.
  - rewrite !app_nil_r, !py_int_dec. cbn [bind].
    eexists; split; [reflexivity|]. split.
    + intros H. assert (m = n + 1)%N by lia. subst. constructor.
    + intros H. inversion H; subst. lia.
Qed.

Lemma numeric_decimal s n l : plain_letter l -> decimal_id (numeric_id s n l).
Proof.
  intros H. rewrite numeric_id_eq. apply decimal_id_app; [apply decimal_id_dec|].
  apply no_digits_decimal. now apply letter_text_nodigits.
Qed.

Lemma numeric_less s n l m k : plain_letter l -> plain_letter k ->
  numeric_successor n l m k ->
  identifier_less (numeric_id s n l) (numeric_id s m k) = Ok true.
Proof.
  intros Hl Hk Hs.
  assert (Ra := reads_dec_text n (letter_text s l) (letter_text_nodigits s l Hl)).
  assert (Rb := reads_dec_text m (letter_text s k) (letter_text_nodigits s k Hk)).
  rewrite <- !numeric_id_eq in *.
  apply (identifier_less_true _ _ _ _ (numeric_decimal s n l Hl) (numeric_decimal s m k Hk) Ra Rb).
  apply before_later. inversion Hs; subst.
  - apply before_number. lia.
  - apply before_later. destruct s; simpl; constructor.
  - apply before_later. destruct s; simpl; constructor; simpl;
      repeat match goal with |- context [(?x =? ?y)%N] => destruct (N.eqb_spec x y) end; lia.
Qed.

Lemma dec_N_digit_last n m d : dec_N m ++ [d] = dec_N n -> isdigit_chr d = false -> False.
Proof.
  intros E H. pose proof (dec_all_digits n) as D. rewrite <- E in D. apply Forall_app in D as [_ D].
  inversion D; congruence.
Qed.

(* Chains of successors never repeat *)
Lemma chain_nodup {A} (R lt : A -> A -> Prop) (P : A -> Prop) :
  (forall x y, P x -> P y -> R x y -> lt x y) ->
  (forall x, ~ lt x x) -> (forall x y z, lt x y -> lt y z -> lt x z) ->
  forall l, Forall P l -> Sorted R l -> NoDup l.
Proof.
  intros HR Hirr Htr l HP HS.
  assert (S2 : Sorted lt l).
  { induction HS as [|x l HS IH Hhd]; [constructor|]. inversion HP; subst.
    constructor; [auto|]. destruct Hhd as [|y l Hxy]; [constructor|]. constructor.
    inversion H2; subst. auto. }
  apply Sorted_StronglySorted in S2; [|exact Htr].
  induction S2 as [|x l HSS IH Hall]; [constructor|].
  inversion HP; inversion HS; subst. constructor; auto.
  intros Hin. rewrite Forall_forall in Hall. apply (Hirr x). auto.
Qed.

Definition num_key := (N * option N)%type.
Definition key_lt (a b : num_key) : Prop :=
  (fst a < fst b)%N \/ (fst a = fst b /\
    match snd a, snd b with None, Some _ => True | Some x, Some y => (x < y)%N | _, _ => False end).

Lemma successor_key_lt n l m k : numeric_successor n l m k -> key_lt (n, l) (m, k).
Proof. intros H; inversion H; subst; unfold key_lt; simpl; [left; lia|right; auto|right; split; [reflexivity|lia]]. Qed.

Lemma key_lt_trans a b c : key_lt a b -> key_lt b c -> key_lt a c.
Proof.
  destruct a as [n l], b as [m k], c as [p j]. unfold key_lt; simpl.
  intros [H1|[-> H1]] [H2|[-> H2]]; try (left; lia).
  right. split; [reflexivity|]. destruct l, k, j; auto; try contradiction. lia.
Qed.
Lemma key_lt_irrefl a : ~ key_lt a a.
Proof. destruct a as [n [l|]]; unfold key_lt; simpl; lia. Qed.

(* A list of identifiers, each with its own slash style, in which each is the successor of the
   one before, has no duplicates -- even after removing the slashes. *)
Lemma numeric_chain_nodup (l : list (bool * N * option N)) :
  Forall (fun '(_, _, k) => plain_letter k) l ->
  Sorted (fun '(s, n, c) '(s', m, d) =>
     is_next_numeric_identifier (numeric_id s n c) (numeric_id s' m d) = Ok true) l ->
  NoDup (map (fun '(s, n, c) => numeric_id s n c) l).
Proof.
  intros HP HS.
  assert (K : NoDup (map (fun '(s, n, c) => (n, c) : num_key) l)).
  { assert (G : forall l', Forall (fun '(_, _, k) => plain_letter k) l' ->
       Sorted (fun '(s, n, c) '(s', m, d) =>
         is_next_numeric_identifier (numeric_id s n c) (numeric_id s' m d) = Ok true) l' ->
       Sorted key_lt (map (fun '(s, n, c) => (n, c) : num_key) l')).
    { induction 2 as [|[[s n] c] l' HS' IH Hhd]; [constructor|]. inversion H; subst. simpl.
      constructor; [auto|]. destruct Hhd as [|[[s' m] d] l' Hxy]; simpl; constructor.
      inversion H3; subst. destruct (numeric_next_spec s s' n c m d) as (r & E & Hr); auto.
      rewrite E in Hxy. injection Hxy as ->. apply successor_key_lt. now apply Hr. }
    apply (chain_nodup key_lt key_lt (fun _ => True)); auto using key_lt_irrefl.
    - intros ? ? ?; apply key_lt_trans.
    - apply Forall_forall; auto. }
  clear HS. induction l as [|[[s n] c] l IH]; simpl in *; [constructor|].
  inversion K; inversion HP; subst. constructor; auto.
  intros Hin. apply H1. apply in_map_iff in Hin as ([[s' m] d] & E & Hin).
  apply in_map_iff. exists (s', m, d). split; [|exact Hin].
  rewrite Forall_forall in H6. specialize (H6 _ Hin). simpl in H6.
  assert (E' : remove_chr 47 (numeric_id s' m d) = remove_chr 47 (numeric_id s n c)) by now rewrite E.
  rewrite !remove_slash_numeric in E' by assumption.
  destruct d as [d|], c as [c|]; cbn [letter_text app] in E'.
  - apply dec_snoc_inj in E' as [-> ->]. reflexivity.
  - exfalso. rewrite app_nil_r in E'. apply (dec_N_digit_last n m d); auto.
    destruct H6; assumption.
  - exfalso. rewrite app_nil_r in E'. apply (dec_N_digit_last m n c); auto. destruct H5; assumption.
  - rewrite !app_nil_r in E'. apply dec_N_inj in E'. now subst.
Qed.

(** * Article identifiers *)

Lemma alphabet_upper_sweep :
  forallb (fun a => negb (mem_chr 47 a) && negb (mem_chr 58 a)) list_alphabet_upper = true.
Proof. vm_compute. reflexivity. Qed.

Lemma article_letter_ok l : In l list_alphabet_upper -> ~ In 47%N l /\ ~ In 58%N l.
Proof.
  intros H. pose proof alphabet_upper_sweep as S. rewrite forallb_forall in S. specialize (S l H).
  apply andb_true_iff in S as [S1 S2]. rewrite negb_true_iff in S1, S2.
  split; intros Hin; apply mem_chr_In in Hin; congruence.
Qed.

Lemma mem_chr_false c s : mem_chr c s = false <-> ~ In c s.
Proof.
  rewrite <- mem_chr_In. destruct (mem_chr c s); split; congruence.
Qed.

Definition letter_part (l : option pystr) : pystr := match l with None => [] | Some l => 47%N :: l end.
Definition in_book_id n l := dec_N n ++ letter_part l.

Lemma in_book_slash n l : mem_chr 47 (in_book_id n l) = match l with None => false | Some _ => true end.
Proof.
  destruct l as [l|]; unfold in_book_id; simpl.
  - apply mem_chr_In. apply in_or_app. right. now left.
  - rewrite app_nil_r. apply mem_chr_false. apply dec_no_slash. lia.
Qed.
Lemma in_book_colon n l : article_letter l -> ~ In 58%N (in_book_id n l).
Proof.
  intros Hl Hin. apply in_app_or in Hin as [Hin|Hin].
  - eapply dec_no_slash; [|exact Hin]. lia.
  - destruct l as [l|]; simpl in Hin; [|contradiction]. destruct Hin as [Hin|Hin]; [discriminate|].
    now apply (article_letter_ok l Hl).
Qed.
Lemma in_book_split n l : In l list_alphabet_upper -> split_chr 47 (in_book_id n (Some l)) = [dec_N n; l].
Proof.
  intros Hl. unfold in_book_id. simpl. rewrite split_chr_app by (apply dec_no_slash; lia).
  rewrite split_chr_none; [reflexivity|]. now apply article_letter_ok.
Qed.

(* successors within a book *)
Inductive in_book_successor : N -> option pystr -> N -> option pystr -> Prop :=
| ib_number n l : in_book_successor n l (n + 1)%N None
| ib_first n : in_book_successor n None n (Some (u8 "A"))
| ib_letter n x y : follows_in list_alphabet_upper x y -> in_book_successor n (Some x) n (Some y).

Lemma next_letter_upper x y : In x list_alphabet_upper -> In y list_alphabet_upper ->
  is_next_letter_hun x y = true <-> follows_in list_alphabet_upper x y.
Proof. intros; apply letters_upper; auto. Qed.

Lemma dec_app_sep n m c s t : ~ (48 <= c <= 57)%N ->
  dec_N n ++ c :: s = dec_N m ++ c :: t -> n = m /\ s = t.
Proof.
  intros Hc E. assert (E2 : split_chr c (dec_N n ++ c :: s) = split_chr c (dec_N m ++ c :: t)) by now rewrite E.
  rewrite !split_chr_app in E2 by (apply dec_no_slash; lia). injection E2 as E2 E3.
  apply dec_N_inj in E2. subst. apply app_inv_head in E. injection E as ->. auto.
Qed.

Lemma in_book_next_spec n l m k : article_letter l -> article_letter k ->
  exists r, article_next_in_book (in_book_id n l) (in_book_id m k) = Ok r /\
            (r = true <-> in_book_successor n l m k).
Proof.
  intros Hl Hk. unfold article_next_in_book. rewrite !in_book_slash.
  destruct l as [l|], k as [k|]; cbn [negb].
  - rewrite !in_book_split by assumption. eexists; split; [reflexivity|].
    rewrite andb_true_iff, str_eqb_eq, next_letter_upper by assumption. split.
    + intros [E H]. apply dec_N_inj in E. subst. now constructor.
    + intros H. inversion H; subst. auto.
  - rewrite in_book_split by assumption. unfold in_book_id; simpl. rewrite app_nil_r, !py_int_dec.
    eexists; split; [reflexivity|]. split.
    + intros H. assert (m = n + 1)%N by lia. subst. constructor.
    + intros H. inversion H; subst. lia.
  - eexists; split; [reflexivity|]. unfold in_book_id; simpl. rewrite app_nil_r, str_eqb_eq. split.
    + intros H. apply dec_app_sep in H as [-> <-]; [constructor|lia].
    + intros H. inversion H; subst. reflexivity.
  - unfold in_book_id; simpl. rewrite !app_nil_r, !py_int_dec.
    eexists; split; [reflexivity|]. split.
    + intros H. assert (m = n + 1)%N by lia. subst. constructor.
    + intros H. inversion H; subst. lia.
Qed.

Lemma article_id_eq b n l : article_id b n l =
  match b with None => in_book_id n l | Some b => dec_N b ++ 58%N :: in_book_id n l end.
Proof. destruct b; unfold article_id, in_book_id, letter_part; [now rewrite <- app_assoc|reflexivity]. Qed.

Lemma article_colon b n l : article_letter l ->
  mem_chr 58 (article_id b n l) = match b with None => false | Some _ => true end.
Proof.
  intros Hl. rewrite article_id_eq. destruct b as [b|].
  - apply mem_chr_In, in_or_app. right; now left.
  - apply mem_chr_false. now apply in_book_colon.
Qed.

Lemma in_book_is_1 n l : in_book_id n l = u8 "1" <-> n = 1%N /\ l = None.
Proof.
  split; [|intros [-> ->]; reflexivity]. intros E.
  assert (H : mem_chr 47 (in_book_id n l) = false) by now rewrite E.
  rewrite in_book_slash in H. destruct l; [discriminate|]. split; [|reflexivity].
  unfold in_book_id in E. simpl in E. rewrite app_nil_r in E.
  change (u8 "1") with (dec_N 1) in E. now apply dec_N_inj in E.
Qed.

Lemma article_next_spec b n l c m k : article_letter l -> article_letter k ->
  exists r, article_is_next_identifier (article_id b n l) (article_id c m k) = Ok r /\
            (r = true <-> article_successor b n l c m k).
Proof.
  intros Hl Hk. unfold article_is_next_identifier. rewrite !article_colon by assumption.
  destruct (in_book_next_spec n l m k Hl Hk) as (r & Er & Hr).
  destruct b as [b|], c as [c|]; cbn [Bool.eqb negb].
  - rewrite !article_id_eq. rewrite !split_chr_app by (apply dec_no_slash; lia).
    rewrite !split_chr_none by (now apply in_book_colon).
    destruct (str_eqb (dec_N b) (dec_N c)) eqn:E; cbn [negb].
    + apply str_eqb_eq, dec_N_inj in E. subst c. exists r. split; [exact Er|]. rewrite Hr. split.
      * intros H. inversion H; subst; constructor; auto.
      * intros H. inversion H; subst; try (constructor; auto; fail). lia.
    + apply str_eqb_neq in E. rewrite !py_int_dec. cbn [bind].
      eexists; split; [reflexivity|]. rewrite andb_true_iff, str_eqb_eq, in_book_is_1. split.
      * intros [H [-> ->]]. assert (c = b + 1)%N by lia. subst. constructor.
      * intros H. inversion H; subst; try congruence. split; [lia|auto].
  - eexists; split; [reflexivity|]. split; [discriminate|]. intros H; inversion H.
  - eexists; split; [reflexivity|]. split; [discriminate|]. intros H; inversion H.
  - rewrite !article_id_eq. exists r. split; [exact Er|]. rewrite Hr. split.
    + intros H. inversion H; subst; constructor; auto.
    + intros H. inversion H; subst; constructor; auto.
Qed.

Lemma reads_article b n l : article_letter l -> exists ps,
  reads_as (article_id b n l) ps /\
  ps = match b with None => [] | Some b => [PStr []; PInt (Z.of_N b)] end ++
       PStr (match b with None => [] | Some _ => [58%N] end) :: PInt (Z.of_N n) ::
       match l with None => [] | Some l => [PStr (47%N :: l)] end.
Proof.
  intros Hl. eexists; split; [|reflexivity]. rewrite article_id_eq.
  assert (R : forall t, no_digits t ->
    reads_as (t ++ in_book_id n l) (PStr t :: PInt (Z.of_N n) :: match l with None => [] | Some l => [PStr (47%N :: l)] end)).
  { intros t Ht. unfold in_book_id. rewrite <- (number_of_dec n).
    assert (Hn : no_digits (letter_part l)).
    { destruct l as [l|]; [|constructor]. constructor; [reflexivity|].
      assert (S : forallb (fun a => forallb (fun c => negb (isdigit_chr c)) a) list_alphabet_upper = true)
        by (vm_compute; reflexivity).
      rewrite forallb_forall in S. specialize (S l Hl). rewrite forallb_forall in S.
      apply Forall_forall. intros x Hx. now apply negb_true_iff, S. }
    constructor; auto using dec_all_digits, dec_N_nonempty.
    - destruct l; simpl; auto.
    - destruct l; simpl; constructor; [discriminate|exact Hn]. }
  destruct b as [b|].
  - change (dec_N b ++ 58%N :: in_book_id n l) with ([] ++ dec_N b ++ [58%N] ++ in_book_id n l).
    rewrite <- (number_of_dec b). cbn [app]. apply (reads_number [] (dec_N b)); auto using dec_all_digits, dec_N_nonempty.
    + constructor.
    + apply (R [58%N]). repeat constructor.
  - apply (R []). constructor.
Qed.

Lemma article_decimal b n l : article_letter l -> decimal_id (article_id b n l).
Proof.
  intros Hl. unfold article_id. apply decimal_id_app; [|apply decimal_id_app].
  - destruct b; [|constructor]. apply decimal_id_app; [apply decimal_id_dec|].
    apply no_digits_decimal. repeat constructor.
  - apply decimal_id_dec.
  - apply no_digits_decimal. destruct l as [l|]; [|constructor]. constructor; [reflexivity|].
    assert (S : forallb (fun a => forallb (fun c => negb (isdigit_chr c)) a) list_alphabet_upper = true)
        by (vm_compute; reflexivity).
    rewrite forallb_forall in S. specialize (S l Hl). rewrite forallb_forall in S.
    apply Forall_forall. intros x Hx. now apply negb_true_iff, S.
Qed.

Lemma article_next_less b n l c m k : article_letter l -> article_letter k ->
  article_is_next_identifier (article_id b n l) (article_id c m k) = Ok true ->
  identifier_less (article_id b n l) (article_id c m k) = Ok true.
Proof.
  intros Hl Hk H. destruct (article_next_spec b n l c m k Hl Hk) as (r & E & Hr).
  assert (r = true) by congruence. subst r. destruct Hr as [Hr _]. specialize (Hr eq_refl).
  destruct (reads_article b n l Hl) as (pa & Ra & Ea).
  destruct (reads_article c m k Hk) as (pb & Rb & Eb).
  apply (identifier_less_true _ _ pa pb); auto using article_decimal. subst pa pb.
  inversion Hr; subst.
  - cbn [app]. apply before_later, before_number. lia.
  - destruct c; cbn [app]; repeat apply before_later; apply before_number; lia.
  - destruct c; cbn [app]; repeat apply before_later; constructor.
  - destruct c; cbn [app]; repeat apply before_later; apply before_text;
      match goal with |- _ = true => change (str_ltb x y = true) end;
      apply letters_lt; apply letters_upper; auto.
Qed.

Lemma article_chain_nodup (l : list (option N * N * option pystr)) :
  Forall (fun '(_, _, k) => article_letter k) l ->
  Sorted (fun '(b, n, x) '(c, m, y) =>
     article_is_next_identifier (article_id b n x) (article_id c m y) = Ok true) l ->
  NoDup (map (fun '(b, n, x) => article_id b n x) l).
Proof.
  intros HP HS.
  apply (chain_nodup (fun a b => identifier_less a b = Ok true) (fun a b => identifier_less a b = Ok true)
           (fun _ => True)).
  - auto.
  - apply identifier_less_irrefl.
  - apply identifier_less_trans.
  - apply Forall_forall; auto.
  - induction HS as [|[[b n] x] l HS IH Hhd]; [constructor|]. inversion HP; subst. cbn [map].
    constructor; [auto|]. destruct Hhd as [|[[c m] y] l Hxy]; cbn [map]; constructor.
    inversion H2; subst. apply article_next_less; auto.
Qed.

(** * cut_by_identifier *)

Lemma not_after_iff a b : decimal_id a -> decimal_id b ->
  not_after a b <-> identifier_less b a = Ok false.
Proof.
  intros Ha Hb. unfold not_after. split.
  - intros (pa & pb & Ra & Rb & H).
    destruct (identifier_less_spec b a pb pa) as (r & E & Hr); auto. rewrite E.
    destruct r; [|reflexivity]. exfalso. apply H, Hr. reflexivity.
  - intros H. destruct (reads_exists a) as [pa Ra], (reads_exists b) as [pb Rb].
    exists pa, pb. repeat split; auto. intros Hb2.
    apply (identifier_less_true b a pb pa) in Hb2; auto. congruence.
Qed.

Definition in_interval {E} (ident : E -> option pystr) (lo hi : pystr) (e : E) : Prop :=
  exists i, ident e = Some i /\ not_after lo i /\ not_after i hi.

Lemma cut_spec {E} (ident : E -> option pystr) lo hi (l : list E) :
  decimal_id lo -> decimal_id hi ->
  (forall e i, In e l -> ident e = Some i -> decimal_id i) ->
  exists r, cut_by_identifier ident l lo hi = Ok r /\
    picks (fun e => exists i, ident e = Some i /\ not_after lo i /\ not_after i hi) l r.
Proof.
  intros Hlo Hhi. induction l as [|e l IH]; intros Hl.
  - exists []. split; [reflexivity|constructor].
  - destruct IH as (r & Er & Hr); [intros; eapply Hl; eauto; now right|].
    cbn [cut_by_identifier]. destruct (ident e) as [i|] eqn:Ei.
    + assert (Hi : decimal_id i) by (eapply Hl; eauto; now left).
      destruct (identifier_less_total i lo Hi Hlo) as [b1 E1].
      destruct (identifier_less_total hi i Hhi Hi) as [b2 E2].
      rewrite E1. cbn [bind]. destruct b1; cbn [bind].
      * rewrite Er. cbn [bind]. exists r. split; [reflexivity|]. constructor; [|exact Hr].
        intros (i' & Ei' & H & _). assert (i' = i) by congruence; subst.
        apply not_after_iff in H; auto. congruence.
      * rewrite E2. cbn [bind]. rewrite Er. cbn [bind]. destruct b2.
        -- exists r. split; [reflexivity|]. constructor; [|exact Hr].
           intros (i' & Ei' & _ & H). assert (i' = i) by congruence; subst.
           apply not_after_iff in H; auto. congruence.
        -- exists (e :: r). split; [reflexivity|]. constructor; [|exact Hr].
           exists i. rewrite !not_after_iff by assumption. auto.
    + cbn [bind]. rewrite Er. cbn [bind]. exists r. split; [reflexivity|].
      constructor; [|exact Hr]. intros (i & Ei' & _). congruence.
Qed.

(* In a sorted list the selected items stand next to each other *)
Lemma picks_none {E} (P : E -> Prop) l : Forall (fun x => ~ P x) l -> picks P l [].
Proof. induction 1; constructor; auto. Qed.
Lemma picks_none_inv {E} (P : E -> Prop) l r : Forall (fun x => ~ P x) l -> picks P l r -> r = [].
Proof. intros HF H. induction H; inversion HF; subst; auto; contradiction. Qed.

Lemma cut_contiguous {E} (ident : E -> option pystr) lo hi (l r : list E) :
  decimal_id lo -> decimal_id hi ->
  (forall e, In e l -> exists i, ident e = Some i /\ decimal_id i) ->
  Sorted (fun x y => exists i j, ident x = Some i /\ ident y = Some j /\ identifier_less i j = Ok true) l ->
  cut_by_identifier ident l lo hi = Ok r ->
  exists before_part after_part, l = before_part ++ r ++ after_part.
Proof.
  intros Hlo Hhi Hl HS Hcut.
  destruct (cut_spec ident lo hi l Hlo Hhi) as (r' & Er & Hp).
  { intros e i Hin Hi. destruct (Hl e Hin) as (j & Hj & Hd). congruence. }
  assert (r' = r) by congruence. subst r'. clear Hcut Er.
  apply Sorted_StronglySorted in HS.
  2:{ intros x y z (i & j & Hi & Hj & H1) (j' & k & Hj' & Hk & H2). exists i, k.
      assert (j' = j) by congruence; subst. repeat split; auto. eapply identifier_less_trans; eauto. }
  induction Hp as [|x l r Hx Hp IH|x l r Hx Hp IH]; inversion HS as [|? ? HSl HFl]; subst.
  - exists [], []. reflexivity.
  - (* after the first kept element: the dropped ones are above hi, so all later ones too *)
    clear IH.
    assert (G : exists b, l = r ++ b).
    { clear HS. assert (Hlx : forall e, In e l -> exists i, ident e = Some i /\ decimal_id i)
        by (intros; apply Hl; now right).
      destruct Hx as (ix & Eix & Hx1 & Hx2).
      assert (Dix : decimal_id ix) by (destruct (Hl x (or_introl eq_refl)) as (j & ? & ?); congruence).
      clear Hl. induction Hp as [|y l r Hy Hp IH|y l r Hy Hp IH].
      - exists []. reflexivity.
      - inversion HSl as [|? ? HSy HFy]; inversion HFl as [|? ? Hxy HFx]; subst. destruct IH as [b ->]; auto.
        + intros; apply Hlx; now right.
        + exists b. reflexivity.
      - exists (y :: l). cbn [app]. enough (r = []) by (subst; reflexivity).
        inversion HSl as [|? ? HSy HFy]; inversion HFl as [|? ? Hxy HFx]; subst.
        eapply picks_none_inv; [|exact Hp].
        destruct Hxy as (ix' & iy & Ex' & Ey & Lxy). assert (ix' = ix) by congruence; subst ix'.
        destruct (Hlx y (or_introl eq_refl)) as (iy' & Ey' & Diy). assert (iy' = iy) by congruence; subst iy'.
        assert (Hhy : identifier_less hi iy = Ok true).
        { destruct (identifier_less_total hi iy Hhi Diy) as [b Eb]. destruct b; [exact Eb|].
          exfalso. apply Hy. exists iy. split; [exact Ey|]. split; [|now apply not_after_iff].
          apply not_after_iff; auto. destruct (identifier_less_total iy lo Diy Hlo) as [b2 Eb2].
          rewrite Eb2. destruct b2; [|reflexivity]. exfalso.
          apply not_after_iff in Hx1; auto.
          assert (identifier_less ix lo = Ok true) by (eapply identifier_less_trans; eauto). congruence. }
        apply Forall_forall. intros z Hz (iz & Ez & _ & Hz2).
        rewrite Forall_forall in HFy. destruct (HFy z Hz) as (iy' & iz' & Ey2 & Ez' & Lyz).
        assert (iy' = iy) by congruence. assert (iz' = iz) by congruence. subst.
        destruct (Hlx z (or_intror Hz)) as (iz' & Ez2 & Diz). assert (iz' = iz) by congruence; subst.
        apply not_after_iff in Hz2; auto.
        assert (identifier_less hi iz = Ok true) by (eapply identifier_less_trans; eauto). congruence. }
    destruct G as [b ->]. exists [], b. reflexivity.
  - destruct IH as (a & b & ->); auto.
    + intros; apply Hl; now right.
    + exists (x :: a), b. reflexivity.
Qed.
