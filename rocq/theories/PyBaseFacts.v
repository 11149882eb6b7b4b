(* Lemmas about the Python runtime fragment of PyBase.v. *)
From Coq Require Import ZifyBool ZifyNat ZifyN.
From Verif Require Import PyBase.

Lemma list_eqb_eq {A} (eqb : A -> A -> bool) :
  (forall x y, eqb x y = true <-> x = y) ->
  forall a b, list_eqb eqb a b = true <-> a = b.
Proof.
  intros H a; induction a as [|x a IH]; intros [|y b]; simpl; split; intro E;
    try discriminate; try reflexivity.
  - apply andb_true_iff in E as [E1 E2]. f_equal; [now apply H | now apply IH].
  - injection E as -> ->. apply andb_true_iff; split; [now apply H | now apply IH].
Qed.

Lemma str_eqb_eq a b : str_eqb a b = true <-> a = b.
Proof. apply list_eqb_eq; apply N.eqb_eq. Qed.

Lemma str_eqb_refl a : str_eqb a a = true.
Proof. now apply str_eqb_eq. Qed.

Lemma str_eqb_neq a b : str_eqb a b = false <-> a <> b.
Proof.
  rewrite <- str_eqb_eq. destruct (str_eqb a b); split; intro; congruence.
Qed.

Lemma str_eqb_sym a b : str_eqb a b = str_eqb b a.
Proof.
  destruct (str_eqb a b) eqn:E.
  - apply str_eqb_eq in E; subst. symmetry; apply str_eqb_refl.
  - symmetry. apply str_eqb_neq. apply str_eqb_neq in E. congruence.
Qed.

Lemma str_eq_dec (a b : pystr) : {a = b} + {a <> b}.
Proof. apply list_eq_dec, N.eq_dec. Qed.

Lemma opt_eqb_eq {A} (eqb : A -> A -> bool) :
  (forall x y, eqb x y = true <-> x = y) ->
  forall a b, opt_eqb eqb a b = true <-> a = b.
Proof.
  intros H [x|] [y|]; simpl; split; intro E; try discriminate; try reflexivity.
  - f_equal; now apply H.
  - injection E as ->; now apply H.
Qed.

(** Order on strings *)
Lemma str_ltb_irrefl a : str_ltb a a = false.
Proof. induction a as [|x a IH]; simpl; [reflexivity|]. now rewrite N.eqb_refl. Qed.

Lemma str_ltb_trans a b c : str_ltb a b = true -> str_ltb b c = true -> str_ltb a c = true.
Proof.
  revert b c; induction a as [|x a IH]; intros [|y b] [|z c]; simpl; try discriminate; auto.
  destruct (N.eqb_spec x y) as [->|Hxy]; destruct (N.eqb_spec y z) as [->|Hyz];
    try rewrite N.eqb_refl; intros H1 H2.
  - eauto.
  - destruct (N.eqb_spec y z); [congruence|assumption].
  - destruct (N.eqb_spec x z); [congruence|assumption].
  - destruct (N.eqb_spec x z); lia.
Qed.

Lemma str_ltb_total a b : str_ltb a b = false -> str_ltb b a = false -> a = b.
Proof.
  revert b; induction a as [|x a IH]; intros [|y b]; simpl; try discriminate; auto.
  rewrite (N.eqb_sym y x).
  destruct (N.eqb_spec x y) as [->|Hxy]; intros H1 H2; [f_equal; auto | lia].
Qed.

(** Prefixes and suffixes *)
Lemma startswith_spec p s : startswith p s = true <-> exists t, s = p ++ t.
Proof.
  revert s; induction p as [|x p IH]; intros s; simpl.
  - split; [intros _; now exists s | reflexivity].
  - destruct s as [|y s]; split; try discriminate.
    + intros [t H]; discriminate.
    + intros H; apply andb_true_iff in H as [H1 H2].
      apply N.eqb_eq in H1 as ->. apply IH in H2 as [t ->]. now exists t.
    + intros [t H]; injection H as -> ->. rewrite N.eqb_refl; simpl. apply IH; now exists t.
Qed.

Lemma startswith_app p t : startswith p (p ++ t) = true.
Proof. apply startswith_spec; now exists t. Qed.

Lemma endswith_spec p s : endswith p s = true <-> exists t, s = t ++ p.
Proof.
  unfold endswith. rewrite startswith_spec. split; intros [t H].
  - exists (rev t). rewrite <- (rev_involutive s), H, rev_app_distr. now rewrite rev_involutive.
  - exists (rev t). now rewrite H, rev_app_distr.
Qed.

Lemma contains_sub_spec p s : contains_sub p s = true <-> exists a b, s = a ++ p ++ b.
Proof.
  induction s as [|x s IH].
  - simpl. rewrite orb_false_r, startswith_spec. split.
    + intros [t H]; now exists [], t.
    + intros (a & b & H). destruct a; [now exists b | discriminate].
  - change (contains_sub p (x :: s)) with (startswith p (x :: s) || contains_sub p s).
    rewrite orb_true_iff, startswith_spec, IH. split.
    + intros [[t H]|(a & b & ->)]; [now exists [], t | now exists (x :: a), b].
    + intros (a & b & H). destruct a as [|y a]; [left; now exists b|].
      right. injection H as -> ->. now exists a, b.
Qed.

Lemma find_sub_spec p s n :
  find_sub p s = Some n ->
  exists b, s = firstn n s ++ p ++ b /\ n <= List.length s /\
  forall m, m < n -> startswith p (skipn m s) = false.
Proof.
  revert n; induction s as [|x s IH]; intros n; simpl.
  - destruct p; simpl; [|discriminate]. intros [= <-]. exists []; repeat split; auto; lia.
  - destruct (startswith p (x :: s)) eqn:E.
    + intros [= <-]. apply startswith_spec in E as [t E]. exists t; simpl. repeat split; auto; lia.
    + destruct (find_sub p s) as [k|] eqn:F; simpl; [|discriminate].
      intros [= <-]. destruct (IH k eq_refl) as (b & H1 & H2 & H3).
      exists b; simpl. repeat split; [now f_equal | lia |].
      intros [|m] Hm; [exact E | simpl; apply H3; lia].
Qed.

Lemma find_sub_none p s : find_sub p s = None <-> contains_sub p s = false.
Proof.
  induction s as [|x s IH]; simpl.
  - destruct (startswith p []); simpl; split; congruence.
  - destruct (startswith p (x :: s)); simpl; [split; congruence|].
    destruct (find_sub p s); simpl; rewrite <- IH; split; congruence.
Qed.

Lemma mem_chr_In c s : mem_chr c s = true <-> In c s.
Proof.
  unfold mem_chr. rewrite existsb_exists. split.
  - intros (x & Hx & E). apply N.eqb_eq in E. now subst.
  - intros H; exists c; split; [assumption | apply N.eqb_refl].
Qed.

Lemma mem_str_In x l : mem_str x l = true <-> In x l.
Proof.
  unfold mem_str. rewrite existsb_exists. split.
  - intros (y & Hy & E). apply str_eqb_eq in E. now subst.
  - intros H; exists x; split; [assumption | apply str_eqb_refl].
Qed.

(** split *)
Lemma split_chr_nonempty c s : split_chr c s <> [].
Proof. destruct s as [|x t]; simpl; [|destruct (x =? c)%N; [|destruct (split_chr c t)]]; discriminate. Qed.

Lemma split_chr_none c s : ~ In c s -> split_chr c s = [s].
Proof.
  induction s as [|x s IH]; simpl; intros H; [reflexivity|].
  destruct (N.eqb_spec x c) as [->|Hx]; [exfalso; auto|].
  rewrite IH by tauto. reflexivity.
Qed.

Lemma split_chr_app c s t : ~ In c s -> split_chr c (s ++ c :: t) = s :: split_chr c t.
Proof.
  induction s as [|x s IH]; simpl; intros H.
  - now rewrite N.eqb_refl.
  - destruct (N.eqb_spec x c) as [->|Hx]; [exfalso; auto|].
    rewrite IH by tauto. reflexivity.
Qed.

Fixpoint join_chr (c : N) (l : list pystr) : pystr :=
  match l with
  | [] => []
  | [x] => x
  | x :: t => x ++ c :: join_chr c t
  end.

Lemma join_split_chr c s : join_chr c (split_chr c s) = s.
Proof.
  induction s as [|x s IH]; [reflexivity|]. simpl.
  destruct (N.eqb_spec x c) as [->|Hx].
  - pose proof (split_chr_nonempty c s). destruct (split_chr c s); [congruence|].
    simpl in *. now rewrite IH.
  - pose proof (split_chr_nonempty c s). destruct (split_chr c s) as [|h [|h2 r]]; [congruence| |];
      simpl in *; now rewrite IH.
Qed.

Lemma before_chr_app c s t : ~ In c s -> before_chr c (s ++ c :: t) = s.
Proof.
  induction s as [|x s IH]; simpl; intros H.
  - now rewrite N.eqb_refl.
  - destruct (N.eqb_spec x c) as [->|Hx]; [exfalso; auto|]. now rewrite IH by tauto.
Qed.

Lemma before_chr_none c s : ~ In c s -> before_chr c s = s.
Proof.
  induction s as [|x s IH]; simpl; intros H; [reflexivity|].
  destruct (N.eqb_spec x c) as [->|Hx]; [exfalso; auto|]. now rewrite IH by tauto.
Qed.

(** while-style list functions *)
Lemma take_drop_while {A} (f : A -> bool) s : take_while f s ++ drop_while f s = s.
Proof. induction s as [|x s IH]; simpl; [reflexivity|]. destruct (f x); simpl; now rewrite ?IH. Qed.

Lemma take_while_all {A} (f : A -> bool) s : forallb f s = true -> take_while f s = s.
Proof.
  induction s as [|x s IH]; simpl; [reflexivity|]. intros H.
  apply andb_true_iff in H as [-> H]. now rewrite IH.
Qed.

Lemma take_while_app {A} (f : A -> bool) s t :
  forallb f s = true -> match t with [] => True | x :: _ => f x = false end ->
  take_while f (s ++ t) = s.
Proof.
  induction s as [|x s IH]; simpl; intros H Ht.
  - destruct t as [|y t]; simpl; [reflexivity | now rewrite Ht].
  - apply andb_true_iff in H as [-> H]. now rewrite IH.
Qed.

Lemma take_while_forall {A} (f : A -> bool) s : forallb f (take_while f s) = true.
Proof. induction s as [|x s IH]; simpl; [reflexivity|]. destruct (f x) eqn:E; simpl; now rewrite ?E. Qed.

Lemma drop_while_none {A} (f : A -> bool) s :
  match s with [] => True | x :: _ => f x = false end -> drop_while f s = s.
Proof. destruct s as [|x s]; simpl; [reflexivity|]. intros ->; reflexivity. Qed.

(** Decimal numerals *)
Definition ascii_digits (s : pystr) : Prop := Forall (fun c => (48 <= c <= 57)%N) s.

(* the number denoted by a string of ASCII digits *)
Definition digits_val (s : pystr) : N := fold_left (fun a c => (a * 10 + (c - 48))%N) s 0%N.

Lemma fold_digits_acc s a :
  fold_left (fun a c => (a * 10 + (c - 48))%N) s a =
  (a * 10 ^ N.of_nat (List.length s) + digits_val s)%N.
Proof.
  unfold digits_val. revert a; induction s as [|c s IH]; intros a.
  - simpl. lia.
  - cbn [fold_left List.length]. rewrite IH, (IH (0 * 10 + (c - 48))%N).
    rewrite Nat2N.inj_succ, N.pow_succ_r'. lia.
Qed.

Lemma digits_val_cons c s :
  digits_val (c :: s) = ((c - 48) * 10 ^ N.of_nat (List.length s) + digits_val s)%N.
Proof. unfold digits_val at 1. cbn [fold_left]. rewrite fold_digits_acc. f_equal. Qed.

Lemma digits_val_app a b :
  digits_val (a ++ b) = (digits_val a * 10 ^ N.of_nat (List.length b) + digits_val b)%N.
Proof. unfold digits_val at 1. rewrite fold_left_app, fold_digits_acc. reflexivity. Qed.

Lemma digits_val_bound s : ascii_digits s -> (digits_val s < 10 ^ N.of_nat (List.length s))%N.
Proof.
  induction 1 as [|c s Hc Hs IH]; [reflexivity|].
  rewrite digits_val_cons. cbn [List.length]. rewrite Nat2N.inj_succ, N.pow_succ_r'. nia.
Qed.

Lemma dec_aux_spec fuel n acc :
  (n < 2 ^ N.of_nat fuel)%N -> 0 < fuel ->
  exists d, dec_aux fuel n acc = d ++ acc /\ ascii_digits d /\ d <> [] /\ digits_val d = n /\
            (n <> 0%N -> match d with c :: _ => c <> 48%N | [] => False end) /\
            (n = 0%N -> d = [48%N]).
Proof.
  revert n acc; induction fuel as [|f IH]; intros n acc Hn Hf; [lia|].
  cbn [dec_aux]. set (c := (48 + n mod 10)%N).
  assert (Hc : (48 <= c <= 57)%N) by (unfold c; pose proof (N.mod_lt n 10); lia).
  destruct (N.ltb_spec n 10) as [Hlt|Hge].
  - exists [c]. repeat split; auto.
    + constructor; [exact Hc | constructor].
    + discriminate.
    + unfold digits_val; cbn [fold_left]. unfold c. rewrite N.mod_small by lia. lia.
    + unfold c. rewrite N.mod_small by lia. lia.
    + intros ->. reflexivity.
  - assert (Hn' : (n / 10 < 2 ^ N.of_nat f)%N).
    { apply N.div_lt_upper_bound; [lia|].
      rewrite Nat2N.inj_succ, N.pow_succ_r' in Hn. lia. }
    assert (Hf' : 0 < f).
    { destruct f; [|lia]. simpl in Hn. lia. }
    destruct (IH (n / 10)%N (c :: acc) Hn' Hf') as (d & E & Hd & Hne & Hv & Hnz & Hz).
    exists (d ++ [c]). rewrite E, <- app_assoc. repeat split; auto.
    + apply Forall_app; split; [exact Hd | constructor; [exact Hc | constructor]].
    + destruct d; discriminate.
    + rewrite digits_val_app, Hv. unfold digits_val; cbn [fold_left List.length]. unfold c.
      pose proof (N.div_mod n 10). change (10 ^ N.of_nat 1)%N with 10%N. lia.
    + intros _. destruct d as [|x d]; [congruence|]. simpl. apply Hnz.
      intros Hq. apply N.div_small_iff in Hq; lia.
    + intros ->. lia.
Qed.

Lemma dec_N_spec n :
  ascii_digits (dec_N n) /\ dec_N n <> [] /\ digits_val (dec_N n) = n /\
  (n <> 0%N -> match dec_N n with c :: _ => c <> 48%N | [] => False end) /\
  (n = 0%N -> dec_N n = [48%N]).
Proof.
  unfold dec_N.
  destruct (dec_aux_spec (S (N.to_nat (N.log2 n))) n []) as (d & E & H); [|lia|].
  - rewrite Nat2N.inj_succ, N2Nat.id.
    destruct (N.eq_dec n 0) as [->|Hn]; [reflexivity|]. apply N.log2_spec. lia.
  - rewrite E, app_nil_r. exact H.
Qed.

Lemma dec_N_inj n m : dec_N n = dec_N m -> n = m.
Proof.
  intros H. destruct (dec_N_spec n) as (_ & _ & H1 & _). destruct (dec_N_spec m) as (_ & _ & H2 & _).
  congruence.
Qed.

Lemma dec_N_digits n : ascii_digits (dec_N n).
Proof. apply dec_N_spec. Qed.
Lemma dec_N_val n : digits_val (dec_N n) = n.
Proof. apply dec_N_spec. Qed.
Lemma dec_N_nonempty n : dec_N n <> [].
Proof. apply dec_N_spec. Qed.

Lemma dec_N_head n c t : dec_N n = c :: t -> n <> 0%N -> (49 <= c <= 57)%N.
Proof.
  intros E Hn. destruct (dec_N_spec n) as (Hd & _ & _ & Hz & _). specialize (Hz Hn).
  rewrite E in *. inversion Hd; subst. lia.
Qed.

(* canonical digit strings are exactly the numerals of their values *)
Lemma dec_N_canonical s :
  ascii_digits s -> s <> [] -> (forall c t, s = c :: t -> t <> [] -> c <> 48%N) ->
  dec_N (digits_val s) = s.
Proof.
  intros Hs Hne Hcan.
  assert (Hinj : forall a b, ascii_digits a -> ascii_digits b -> List.length a = List.length b ->
            digits_val a = digits_val b -> a = b).
  { induction a as [|x a IH]; intros [|y b] Ha Hb L E; simpl in L; try discriminate; auto.
    inversion Ha; inversion Hb; subst. rewrite !digits_val_cons in E.
    injection L as L. rewrite L in E.
    pose proof (digits_val_bound a H2). pose proof (digits_val_bound b H6). rewrite L in H.
    assert (x - 48 = y - 48)%N by nia. assert (x = y) by lia. subst. f_equal. apply IH; auto. lia. }
  destruct (dec_N_spec (digits_val s)) as (Hd & Hdn & Hv & Hnz & Hz).
  apply Hinj; auto.
  (* equal lengths: both are canonical *)
  destruct s as [|c t]; [congruence|].
  destruct t as [|c' t'].
  - inversion Hs; subst.
    destruct (N.eq_dec c 48) as [->|Hc].
    + rewrite Hz; reflexivity.
    + set (d := dec_N (digits_val [c])) in *. clearbody d.
      destruct d as [|x [|y d]]; [congruence|reflexivity|].
      exfalso. inversion Hd as [|? ? Hx Hd']; subst. inversion Hd' as [|? ? Hy Hd'']; subst.
      rewrite !digits_val_cons in Hv. cbn [List.length] in Hv.
      unfold digits_val at 2 in Hv. cbn [fold_left List.length] in Hv.
      assert (Hxn : x <> 48%N).
      { apply Hnz. rewrite digits_val_cons. unfold digits_val. cbn. lia. }
      rewrite Nat2N.inj_succ, N.pow_succ_r' in Hv.
      pose proof (N.pow_nonzero 10 (N.of_nat (List.length d))).
      change (10 ^ N.of_nat 0)%N with 1%N in Hv. nia.
  - assert (Hc : c <> 48%N) by (apply (Hcan c (c' :: t')); [reflexivity | discriminate]).
    inversion Hs as [|? ? Hcr Ht]; subst.
    set (t := c' :: t') in *. clearbody t.
    pose proof (digits_val_bound (c :: t) Hs) as Hub.
    assert (Hlb : (10 ^ N.of_nat (List.length t) <= digits_val (c :: t))%N).
    { rewrite digits_val_cons. nia. }
    set (v := digits_val (c :: t)) in *.
    assert (Hv0 : v <> 0%N).
    { pose proof (N.pow_nonzero 10 (N.of_nat (List.length t))). lia. }
    specialize (Hnz Hv0). set (d := dec_N v) in *. clearbody d v.
    destruct d as [|x d]; [congruence|].
    inversion Hd as [|? ? Hx Hd']; subst.
    pose proof (digits_val_bound (x :: d) Hd) as Hub2.
    assert (Hlb2 : (10 ^ N.of_nat (List.length d) <= digits_val (x :: d))%N).
    { rewrite digits_val_cons. nia. }
    cbn [List.length] in *. f_equal.
    assert (P : forall m k, (10 ^ N.of_nat m < 10 ^ N.of_nat (S k))%N -> m <= k).
    { intros m k H. apply N.pow_lt_mono_r_iff in H; lia. }
    assert (List.length d <= List.length t) by (apply P; lia).
    assert (List.length t <= List.length d) by (apply P; lia). lia.
Qed.

Lemma int_digits_ascii s : ascii_digits s -> forall prev acc,
  (s <> [] \/ prev = true) ->
  int_digits prev acc s = Ok (fold_left (fun a c => (a * 10 + (c - 48))%N) s acc).
Proof.
  induction 1 as [|c s Hc Hs IH]; intros prev acc Hp; simpl.
  - destruct Hp as [Hp| ->]; [congruence | reflexivity].
  - destruct (N.eqb_spec c 95); [lia|].
    unfold decimal_value. replace (c <? 128)%N with true by lia.
    replace ((48 <=? c)%N && (c <=? 57)%N) with true by lia. apply IH. now right.
Qed.

Lemma int_space_digit c : (48 <= c <= 57)%N -> int_space c = false.
Proof. intros H. unfold int_space. replace (127 <? c)%N with false by lia. lia. Qed.

Lemma py_int_digits s : ascii_digits s -> s <> [] -> py_int s = Ok (Z.of_N (digits_val s)).
Proof.
  intros Hs Hne. unfold py_int.
  assert (E1 : drop_while int_space s = s).
  { apply drop_while_none. destruct s as [|c t]; [exact I|].
    inversion Hs; subst. now apply int_space_digit. }
  rewrite E1.
  assert (E2 : drop_while int_space (rev s) = rev s).
  { apply drop_while_none. apply Forall_rev in Hs. destruct (rev s) as [|c t]; [exact I|].
    inversion Hs; subst. now apply int_space_digit. }
  rewrite E2, rev_involutive.
  destruct s as [|c t]; [congruence|].
  inversion Hs as [|? ? Hc Ht]; subst.
  replace (c =? 45)%N with false by lia. replace (c =? 43)%N with false by lia.
  rewrite int_digits_ascii; [reflexivity | exact Hs | now left].
Qed.

Lemma py_int_dec n : py_int (dec_N n) = Ok (Z.of_N n).
Proof.
  rewrite py_int_digits, dec_N_val; auto using dec_N_digits, dec_N_nonempty.
Qed.

Lemma str_of_int_nonneg i : (0 <= i)%Z -> str_of_int i = dec_N (Z.to_N i).
Proof. intros H. unfold str_of_int. replace (i <? 0)%Z with false by lia. reflexivity. Qed.

Lemma py_int_str_of_int i : (0 <= i)%Z -> py_int (str_of_int i) = Ok i.
Proof. intros H. rewrite str_of_int_nonneg by lia. rewrite py_int_dec. f_equal. lia. Qed.

Lemma str_of_int_inj i j : (0 <= i)%Z -> (0 <= j)%Z -> str_of_int i = str_of_int j -> i = j.
Proof.
  intros Hi Hj E. pose proof (py_int_str_of_int i Hi) as H1.
  rewrite E, (py_int_str_of_int j Hj) in H1. congruence.
Qed.

Lemma ascii_digits_isdigit s : ascii_digits s -> s <> [] -> str_isdigit s = true.
Proof.
  intros H Hne. destruct s as [|c t]; [congruence|]. unfold str_isdigit.
  apply forallb_forall. intros x Hx. unfold ascii_digits in H. rewrite Forall_forall in H.
  specialize (H x Hx). unfold isdigit_chr. replace (x <? 128)%N with true by lia. lia.
Qed.

(** bind *)
Lemma bind_ok {A B} (r : res A) (f : A -> res B) b :
  bind r f = Ok b <-> exists a, r = Ok a /\ f a = Ok b.
Proof.
  destruct r as [a|e]; simpl; split.
  - intros H; now exists a.
  - intros (a' & [= <-] & H); exact H.
  - discriminate.
  - intros (a & H & _); discriminate.
Qed.

Lemma mapM_ok {A B} (f : A -> res B) l r :
  mapM f l = Ok r <-> Forall2 (fun x y => f x = Ok y) l r.
Proof.
  revert r; induction l as [|x l IH]; intros r; simpl.
  - split; [intros [= <-]; constructor | intros H; now inversion H].
  - rewrite bind_ok. split.
    + intros (y & Hy & H). apply bind_ok in H as (ys & Hys & [= <-]).
      constructor; [exact Hy | now apply IH].
    + intros H. inversion H; subst. exists y; split; [assumption|].
      apply bind_ok. exists l'; split; [now apply IH | reflexivity].
Qed.
