From Coq Require Import ZifyBool ZifyNat ZifyN Znumtheory.
From Verif Require Import PyBase PyBaseFacts NumModel DateModel DateSpec.
Local Open Scope Z_scope.
Ltac Zify.zify_post_hook ::= Z.div_mod_to_equations.

(* evaluate lookups in the month tables and comparisons of numbers *)
Ltac tbl :=
  repeat match goal with
  | |- context [nth (Z.to_nat ?e) ?t ?d] =>
      let v := eval vm_compute in (nth (Z.to_nat e) t d) in change (nth (Z.to_nat e) t d) with v
  | |- context [2 <? ?e] => let v := eval vm_compute in (2 <? e) in change (2 <? e) with v
  | |- context [?e =? 2] => let v := eval vm_compute in (e =? 2) in change (e =? 2) with v
  | H : context [nth (Z.to_nat ?e) ?t ?d] |- _ =>
      let v := eval vm_compute in (nth (Z.to_nat e) t d) in change (nth (Z.to_nat e) t d) with v in H
  | H : context [?e =? 2] |- _ => let v := eval vm_compute in (e =? 2) in change (e =? 2) with v in H
  end; cbn [andb orb negb] in *.

Lemma is_leap_spec y : is_leap y = true <-> leap y.
Proof.
  unfold is_leap, leap.
  assert (D : forall k, 0 < k -> (y mod k =? 0) = true <-> (k | y)).
  { intros k Hk. rewrite Z.eqb_eq. split; [apply Z.mod_divide; lia|apply Z.mod_divide; lia]. }
  rewrite andb_true_iff, orb_true_iff, negb_true_iff. rewrite (D 4), (D 400) by lia.
  rewrite <- not_true_iff_false, (D 100) by lia. reflexivity.
Qed.
Lemma is_leap_false y : is_leap y = false <-> ~ leap y.
Proof. rewrite <- is_leap_spec. destruct (is_leap y); split; congruence. Qed.

Lemma month_length_iff y m len : month_length y m len <-> 1 <= m <= 12 /\ len = days_in_month y m.
Proof.
  split.
  - intros H. inversion H; subst.
    + cbn [In] in H0. unfold days_in_month. 
      repeat (destruct H0 as [<-|H0]; [split; [lia|reflexivity]|]). contradiction.
    + cbn [In] in H0. unfold days_in_month.
      repeat (destruct H0 as [<-|H0]; [split; [lia|reflexivity]|]). contradiction.
    + split; [lia|]. unfold days_in_month. apply is_leap_spec in H0. rewrite H0. reflexivity.
    + split; [lia|]. unfold days_in_month. apply is_leap_false in H0. rewrite H0. reflexivity.
  - intros [Hm ->]. unfold days_in_month.
    assert (C : m = 1 \/ m = 2 \/ m = 3 \/ m = 4 \/ m = 5 \/ m = 6 \/ m = 7 \/ m = 8 \/ m = 9 \/ m = 10 \/ m = 11 \/ m = 12) by lia.
    destruct (Z.eq_dec m 2) as [->|Hne].
    + destruct (is_leap y) eqn:E; cbn; constructor; [now apply is_leap_spec|now apply is_leap_false].
    + repeat (destruct C as [->|C]; [try congruence; first [apply ml_31; cbn; tauto | apply ml_30; cbn; tauto]|]).
      subst m. apply ml_31; cbn; tauto.
Qed.

Definition validb (y m d : Z) : bool :=
  (1 <=? m) && (m <=? 12) && (1 <=? d) && (d <=? days_in_month y m).
Lemma gregorian_iff y m d : gregorian (mk_date y m d) <-> 1 <= y /\ validb y m d = true.
Proof.
  unfold gregorian, validb. cbn [d_year d_month d_day]. split.
  - intros [Hy (len & Hl & Hd)]. apply month_length_iff in Hl as [Hm ->]. split; [exact Hy|]. lia.
  - intros [Hy H]. split; [exact Hy|]. exists (days_in_month y m). rewrite month_length_iff. lia.
Qed.

Lemma days_before_year_succ y : days_before_year (y + 1) = days_before_year y + 365 + (if is_leap y then 1 else 0).
Proof.
  unfold days_before_year, is_leap. cbv zeta.
  destruct (Z.eqb_spec (y mod 4) 0), (Z.eqb_spec (y mod 100) 0), (Z.eqb_spec (y mod 400) 0); cbn [andb orb negb]; lia.
Qed.

Lemma days_before_month_succ y m : 1 <= m <= 11 ->
  days_before_month y (m + 1) = days_before_month y m + days_in_month y m.
Proof.
  intros H.
  assert (C : m = 1 \/ m = 2 \/ m = 3 \/ m = 4 \/ m = 5 \/ m = 6 \/ m = 7 \/ m = 8 \/ m = 9 \/ m = 10 \/ m = 11) by lia.
  unfold days_before_month, days_in_month.
  destruct (is_leap y); repeat (destruct C as [->|C]; [reflexivity|]); subst m; reflexivity.
Qed.

Lemma ymd2ord_tomorrow a b : tomorrow a b ->
  ymd2ord (d_year b) (d_month b) (d_day b) = ymd2ord (d_year a) (d_month a) (d_day a) + 1.
Proof.
  intros H; inversion H; subst; cbn; unfold ymd2ord.
  - lia.
  - apply month_length_iff in H0 as [Hm ->]. rewrite days_before_month_succ by lia. lia.
  - rewrite days_before_year_succ. unfold days_before_month. tbl. destruct (is_leap y); lia.
Qed.

Lemma days_in_month_pos y m : 1 <= m <= 12 -> 28 <= days_in_month y m.
Proof.
  intros H.
  assert (C : m = 1 \/ m = 2 \/ m = 3 \/ m = 4 \/ m = 5 \/ m = 6 \/ m = 7 \/ m = 8 \/ m = 9 \/ m = 10 \/ m = 11 \/ m = 12) by lia.
  unfold days_in_month. destruct (is_leap y); repeat (destruct C as [->|C]; [tbl; lia|]); subst m; tbl; lia.
Qed.

Lemma tomorrow_gregorian a b : gregorian a -> tomorrow a b -> gregorian b.
Proof.
  destruct a as [y m d], b as [y' m' d']. intros Ha H. apply gregorian_iff in Ha as [Hy Hv].
  apply gregorian_iff. unfold validb in *. inversion H as [? ? ? len L ?|? ? len L ?|]; subst.
  - apply month_length_iff in L as [Hm ->]. lia.
  - apply month_length_iff in L as [Hm ->]. pose proof (days_in_month_pos y' (m + 1)). lia.
  - pose proof (days_in_month_pos (y + 1) 1). lia.
Qed.

Lemma tomorrow_exists a : gregorian a -> exists b, tomorrow a b.
Proof.
  destruct a as [y m d]. intros H. apply gregorian_iff in H as [Hy Hv]. unfold validb in Hv.
  assert (L : month_length y m (days_in_month y m)) by (apply month_length_iff; lia).
  destruct (Z_lt_dec d (days_in_month y m)) as [Hd|Hd].
  - eexists. eapply tm_day; eauto.
  - assert (d = days_in_month y m) by lia. subst d.
    destruct (Z_lt_dec m 12) as [Hm|Hm].
    + eexists. eapply tm_month; eauto.
    + assert (m = 12) by lia. subst m. eexists. apply tm_year.
Qed.

(** The conversion back: one 400-year cycle by computation, the rest by periodicity. *)
Definition days_of_month (y m : Z) : list Z := map Z.of_nat (seq 1 (Z.to_nat (days_in_month y m))).
Lemma ord_cycle :
  forallb (fun y => let y := Z.of_nat y in forallb (fun m => let m := Z.of_nat m in
    forallb (fun d => let '(y', m', d') := ord2ymd (ymd2ord y m d) in
       (y' =? y) && (m' =? m) && (d' =? d)) (days_of_month y m)) (seq 1 12)) (seq 1 400) = true.
Proof. vm_compute. reflexivity. Qed.

Lemma ord2ymd_cycle y m d : 1 <= y <= 400 -> validb y m d = true -> ord2ymd (ymd2ord y m d) = (y, m, d).
Proof.
  intros Hy Hv. unfold validb in Hv. pose proof ord_cycle as C. rewrite forallb_forall in C.
  specialize (C (Z.to_nat y) ltac:(apply in_seq; lia)). cbv zeta in C. rewrite Z2Nat.id in C by lia.
  rewrite forallb_forall in C. specialize (C (Z.to_nat m) ltac:(apply in_seq; lia)).
  rewrite Z2Nat.id in C by lia. rewrite forallb_forall in C.
  specialize (C d). destruct (ord2ymd _) as [[y' m'] d'].
  assert (Hin : In d (days_of_month y m)).
  { unfold days_of_month. apply in_map_iff. exists (Z.to_nat d). split; [lia|]. apply in_seq. lia. }
  specialize (C Hin). repeat f_equal; lia.
Qed.

Lemma is_leap_period y k : is_leap (y + 400 * k) = is_leap y.
Proof.
  unfold is_leap.
  replace ((y + 400 * k) mod 4) with (y mod 4) by lia.
  replace ((y + 400 * k) mod 100) with (y mod 100) by lia.
  replace ((y + 400 * k) mod 400) with (y mod 400) by lia. reflexivity.
Qed.

Lemma ymd2ord_period y m d k : ymd2ord (y + 400 * k) m d = ymd2ord y m d + 146097 * k.
Proof.
  unfold ymd2ord, days_before_month. rewrite is_leap_period. unfold days_before_year. lia.
Qed.
Lemma days_in_month_period y m k : days_in_month (y + 400 * k) m = days_in_month y m.
Proof. unfold days_in_month. now rewrite is_leap_period. Qed.

Lemma ord2ymd_period n k : ord2ymd (n + 146097 * k) =
  let '(y, m, d) := ord2ymd n in (y + 400 * k, m, d).
Proof.
  unfold ord2ymd. cbv zeta.
  replace ((n + 146097 * k - 1) / 146097) with ((n - 1) / 146097 + k) by lia.
  replace ((n + 146097 * k - 1) mod 146097) with ((n - 1) mod 146097) by lia.
  set (r := (n - 1) mod 146097). set (q := (n - 1) / 146097).
  set (n100 := r / 36524). set (r1 := r mod 36524). set (n4 := r1 / 1461). set (r2 := r1 mod 1461).
  set (n1 := r2 / 365). set (r3 := r2 mod 365).
  destruct ((n1 =? 4) || (n100 =? 4)).
  - f_equal. f_equal. lia.
  - set (lp := (n1 =? 3) && (negb (n4 =? 24) || (n100 =? 3))).
    destruct (r3 <? _); (f_equal; f_equal; lia).
Qed.

Lemma ord2ymd_ymd2ord y m d : 1 <= y -> validb y m d = true -> ord2ymd (ymd2ord y m d) = (y, m, d).
Proof.
  intros Hy Hv.
  set (k := (y - 1) / 400). set (y0 := (y - 1) mod 400 + 1).
  assert (E : y = y0 + 400 * k) by (unfold y0, k; lia).
  assert (Hy0 : 1 <= y0 <= 400) by (unfold y0; lia).
  rewrite E, ymd2ord_period, ord2ymd_period, ord2ymd_cycle; auto.
  unfold validb in *. rewrite E, days_in_month_period in Hv. exact Hv.
Qed.

Lemma days_later_ord n : forall a b, days_later n a b ->
  ymd2ord (d_year b) (d_month b) (d_day b) = ymd2ord (d_year a) (d_month a) (d_day a) + Z.of_nat n.
Proof.
  induction n as [|n IH]; intros a b H; inversion H; subst; [lia|].
  apply IH in H2. apply ymd2ord_tomorrow in H1. lia.
Qed.
Lemma days_later_gregorian n : forall a b, gregorian a -> days_later n a b -> gregorian b.
Proof.
  induction n as [|n IH]; intros a b Ha H; inversion H; subst; auto.
  eapply IH; [|exact H2]. eapply tomorrow_gregorian; eauto.
Qed.
Lemma days_later_exists n : forall a, gregorian a -> exists b, days_later n a b.
Proof.
  induction n as [|n IH]; intros a Ha; [exists a; constructor|].
  destruct (tomorrow_exists a Ha) as [b Hb]. destruct (IH b) as [c Hc]; [eapply tomorrow_gregorian; eauto|].
  exists c. econstructor; eauto.
Qed.

Definition ord (a : date) : Z := ymd2ord (d_year a) (d_month a) (d_day a).

Lemma ord_inj a b : gregorian a -> gregorian b -> ord a = ord b -> a = b.
Proof.
  destruct a as [y m d], b as [y' m' d']. intros Ha Hb E. apply gregorian_iff in Ha as [Hy Hv], Hb as [Hy' Hv'].
  unfold ord in E. cbn in E. assert (E2 : ord2ymd (ymd2ord y m d) = ord2ymd (ymd2ord y' m' d')) by now rewrite E.
  rewrite !ord2ymd_ymd2ord in E2 by assumption. injection E2 as -> -> ->. reflexivity.
Qed.

Lemma day_one : gregorian (mk_date 1 1 1).
Proof. apply gregorian_iff. split; [lia|reflexivity]. Qed.
Lemma ord_surj o : 1 <= o -> exists a, gregorian a /\ ord a = o.
Proof.
  intros Ho. destruct (days_later_exists (Z.to_nat (o - 1)) _ day_one) as [a Ha]. exists a.
  split; [eapply days_later_gregorian; [apply day_one|exact Ha]|].
  apply days_later_ord in Ha. unfold ord. rewrite Ha.
  change (ymd2ord (d_year (mk_date 1 1 1)) (d_month (mk_date 1 1 1)) (d_day (mk_date 1 1 1))) with 1. lia.
Qed.

Lemma ord_pos a : gregorian a -> 1 <= ord a.
Proof.
  destruct a as [y m d]. intros H. apply gregorian_iff in H as [Hy Hv]. unfold ord, ymd2ord, days_before_year; cbn.
  assert (0 <= days_before_month y m).
  { unfold days_before_month, validb in *.
    assert (C : m = 1 \/ m = 2 \/ m = 3 \/ m = 4 \/ m = 5 \/ m = 6 \/ m = 7 \/ m = 8 \/ m = 9 \/ m = 10 \/ m = 11 \/ m = 12) by lia.
    destruct (is_leap y); repeat (destruct C as [->|C]; [tbl; lia|]); subst m; tbl; lia. }
  unfold validb in Hv. lia.
Qed.

Lemma ord_max a : gregorian a -> (ord a <= maxordinal <-> d_year a <= 9999).
Proof.
  destruct a as [y m d]. intros H. apply gregorian_iff in H as [Hy Hv]. unfold ord, ymd2ord; cbn.
  unfold maxordinal.
  assert (B : 1 <= days_before_month y m + d <= 365 + (if is_leap y then 1 else 0)).
  { unfold days_before_month, validb, days_in_month in *.
    assert (C : m = 1 \/ m = 2 \/ m = 3 \/ m = 4 \/ m = 5 \/ m = 6 \/ m = 7 \/ m = 8 \/ m = 9 \/ m = 10 \/ m = 11 \/ m = 12) by lia.
    destruct (is_leap y); repeat (destruct C as [->|C]; [tbl; lia|]); subst m; tbl; lia. }
  pose proof (days_before_year_succ y) as S. unfold days_before_year in *. cbv zeta in *.
  destruct (is_leap y); lia.
Qed.

Lemma datetime_date_ok y m d :
  (supported (mk_date y m d) -> datetime_date y m d = Ok (y, m, d)) /\
  (~ supported (mk_date y m d) -> datetime_date y m d = Err ValueError \/ datetime_date y m d = Err OverflowError).
Proof.
  unfold datetime_date, supported, fits_c_int. rewrite gregorian_iff. unfold validb. cbn [d_year d_month d_day].
  assert (days_in_month y m <= 31).
  { unfold days_in_month. destruct (_ && _); [lia|]. generalize (Z.to_nat (m - 1)). intros k.
    do 12 (destruct k as [|k]; [cbn; lia|]). cbn. destruct k; cbn; lia. }
  split.
  - intros [[Hy Hv] Hm].
    replace (negb _) with false by lia.
    replace ((1 <=? y) && (y <=? 9999) && (1 <=? m) && (m <=? 12) && (1 <=? d) && (d <=? days_in_month y m)) with true by lia. reflexivity.
  - intros Hn. destruct (negb _); [auto|]. destruct ((1 <=? y) && (y <=? 9999) && (1 <=? m) && (m <=? 12) && (1 <=? d) && (d <=? days_in_month y m)) eqn:E; [|auto].
    exfalso. apply Hn. lia.
Qed.

Lemma Date_ok y m d : supported (mk_date y m d) <-> Date_ y m d = Ok (mk_date y m d).
Proof.
  unfold Date_. destruct (datetime_date_ok y m d) as [H1 H2]. split.
  - intros H. now rewrite H1.
  - intros H. destruct (datetime_date y m d) as [[[a b] c]|e] eqn:E; [|discriminate].
    unfold datetime_date in E. destruct (negb _); [discriminate|].
    destruct ((1 <=? y) && (y <=? 9999) && (1 <=? m) && (m <=? 12) && (1 <=? d) && (d <=? days_in_month y m)) eqn:E2; [|discriminate].
    unfold supported. rewrite gregorian_iff. unfold validb. cbn [d_year d_month d_day]. lia.
Qed.
Lemma Date_err y m d : ~ supported (mk_date y m d) ->
  Date_ y m d = Err ValueError \/ Date_ y m d = Err OverflowError.
Proof.
  intros H. unfold Date_. destruct (datetime_date_ok y m d) as [_ H2].
  destruct (H2 H) as [-> | ->]; cbn; auto.
Qed.
Lemma Date_overflow y m d : -2147483648 <= y <= 2147483647 -> -2147483648 <= m <= 2147483647 ->
  -2147483648 <= d <= 2147483647 -> ~ supported (mk_date y m d) -> Date_ y m d = Err ValueError.
Proof.
  intros Hy Hm Hd H. destruct (Date_err y m d H) as [E|E]; [exact E|]. exfalso.
  unfold Date_, datetime_date, fits_c_int in E. 
  replace (negb _) with false in E by lia. destruct (_ && _); discriminate.
Qed.

Lemma date_eta a : mk_date (d_year a) (d_month a) (d_day a) = a.
Proof. destruct a; reflexivity. Qed.

(* add_days on supported dates: the date whose ordinal is n larger, or overflow *)
Lemma add_days_ord a n b : supported a -> gregorian b -> ord b = ord a + n ->
  add_days a n = if d_year b <=? 9999 then Ok b else Err OverflowError.
Proof.
  intros [Ha Hya] Hb E. unfold add_days.
  destruct (datetime_date_ok (d_year a) (d_month a) (d_day a)) as [H1 _]. rewrite H1 by (rewrite date_eta; now split).
  cbn [bind].
  pose proof (ord_pos a Ha). pose proof (ord_pos b Hb). pose proof (proj2 (ord_max a Ha) Hya) as Hma.
  pose proof (ord_max b Hb) as Hmb. fold (ord a). unfold maxordinal in *.
  destruct (Z.leb_spec (d_year b) 9999) as [Hyb|Hyb].
  - assert (ord b <= 3652059) by now apply Hmb.
    replace (negb ((-999999999 <=? n) && (n <=? 999999999))) with false by lia.
    replace ((1 <=? ord a + n) && (ord a + n <=? 3652059)) with true by lia.
    rewrite <- E. unfold ord. destruct b as [y m d]. apply gregorian_iff in Hb as Hb'. cbn in *.
    rewrite ord2ymd_ymd2ord by apply Hb'. apply Date_ok. split; auto.
  - assert (~ ord b <= 3652059) by (rewrite Hmb; lia).
    destruct (negb _); [reflexivity|].
    replace ((1 <=? ord a + n) && (ord a + n <=? 3652059)) with false by lia. reflexivity.
Qed.

Lemma add_days_forward a n b : supported a -> days_later n a b ->
  add_days a (Z.of_nat n) = if d_year b <=? 9999 then Ok b else Err OverflowError.
Proof.
  intros Ha H. apply add_days_ord; auto.
  - eapply days_later_gregorian; [apply Ha|exact H].
  - apply days_later_ord in H. exact H.
Qed.

Lemma days_later_of_ord a b : gregorian a -> gregorian b -> ord a <= ord b ->
  days_later (Z.to_nat (ord b - ord a)) a b.
Proof.
  intros Ha Hb H. destruct (days_later_exists (Z.to_nat (ord b - ord a)) a Ha) as [c Hc].
  assert (E : c = b); [|now rewrite <- E at 2].
  apply ord_inj; [exact (days_later_gregorian _ _ _ Ha Hc)|exact Hb|].
  apply days_later_ord in Hc. fold (ord c) (ord a) in Hc. lia.
Qed.

Lemma add_days_backward b n : supported b ->
  (exists a, gregorian a /\ days_later n a b /\ add_days b (- Z.of_nat n) = Ok a) \/
  ((forall a, gregorian a -> ~ days_later n a b) /\ add_days b (- Z.of_nat n) = Err OverflowError).
Proof.
  intros Hb. destruct (Z_le_dec 1 (ord b - Z.of_nat n)) as [H|H].
  - left. destruct (ord_surj _ H) as (a & Ha & E). exists a. split; [exact Ha|].
    assert (D : days_later n a b).
    { replace n with (Z.to_nat (ord b - ord a)) by lia. apply days_later_of_ord; auto; [apply Hb|lia]. }
    split; [exact D|]. rewrite (add_days_ord b (- Z.of_nat n) a Hb Ha) by lia.
    assert (d_year a <= 9999).
    { apply ord_max; [exact Ha|]. pose proof (proj2 (ord_max b (proj1 Hb)) (proj2 Hb)). lia. }
    replace (_ <=? 9999) with true by lia. reflexivity.
  - right. split.
    + intros a Ha D. apply days_later_ord in D. pose proof (ord_pos a Ha). unfold ord in *. lia.
    + unfold add_days. destruct (datetime_date_ok (d_year b) (d_month b) (d_day b)) as [H1 _].
      rewrite H1 by (rewrite date_eta; exact Hb). cbn [bind]. destruct (negb _); [reflexivity|].
      fold (ord b). replace (1 <=? ord b + - Z.of_nat n) with false by lia. reflexivity.
Qed.

Lemma add_days_supported a n b : add_days a n = Ok b -> supported a /\ supported b /\ ord b = ord a + n.
Proof.
  intros H. unfold add_days in H. destruct (datetime_date_ok (d_year a) (d_month a) (d_day a)) as [_ H2].
  rewrite date_eta in H2.
  destruct (datetime_date (d_year a) (d_month a) (d_day a)) as [[[y m] d]|e] eqn:E; [|discriminate].
  assert (Sa : supported a).
  { destruct a as [y0 m0 d0]. cbn in *. apply Date_ok. unfold Date_. now rewrite E. }
  assert (E2 : (y, m, d) = (d_year a, d_month a, d_day a)).
  { destruct (datetime_date_ok (d_year a) (d_month a) (d_day a)) as [H1 _]. rewrite date_eta in H1.
    rewrite H1 in E by exact Sa. congruence. }
  injection E2 as -> -> ->. cbn [bind] in H. destruct (negb _); [discriminate|].
  fold (ord a) in H. destruct (_ && _) eqn:E3; [|discriminate].
  destruct (ord_surj (ord a + n) ltac:(lia)) as (c & Hc & Ec).
  unfold ord in Ec at 1. rewrite <- Ec in H. destruct c as [y1 m1 d1]. apply gregorian_iff in Hc as Hc'. cbn in *.
  rewrite ord2ymd_ymd2ord in H by apply Hc'.
  assert (Eb : b = mk_date y1 m1 d1).
  { unfold Date_ in H. destruct (datetime_date y1 m1 d1) as [[[? ?] ?]|]; [|discriminate]. cbn in H. congruence. }
  subst b. split; [exact Sa|]. split; [now apply Date_ok|exact Ec].
Qed.

Lemma add_days_add a m n b : add_days a m = Ok b ->
  (forall c, add_days b n = Ok c <-> add_days a (m + n) = Ok c).
Proof.
  intros H c. apply add_days_supported in H as (Ha & Hb & E).
  split; intros H; apply add_days_supported in H as (_ & Hc & E2).
  - rewrite (add_days_ord a (m + n) c Ha (proj1 Hc)) by lia.
    replace (_ <=? 9999) with true by (destruct Hc; lia). reflexivity.
  - rewrite (add_days_ord b n c Hb (proj1 Hc)) by lia.
    replace (_ <=? 9999) with true by (destruct Hc; lia). reflexivity.
Qed.

Lemma add_days_undo a n b : add_days a n = Ok b -> add_days b (- n) = Ok a.
Proof.
  intros H. apply add_days_supported in H as (Ha & Hb & E).
  rewrite (add_days_ord b (- n) a Hb (proj1 Ha)) by lia.
  replace (_ <=? 9999) with true by (destruct Ha; lia). reflexivity.
Qed.

(** * Texts *)

Lemma numeral_int s n : numeral s n -> py_int s = Ok n.
Proof. intros (Hne & Hd & <-). now apply py_int_digits. Qed.
Lemma numeral_no c s n : numeral s n -> ~ (48 <= c <= 57)%N -> ~ In c s.
Proof. intros (_ & Hd & _) Hc Hin. unfold ascii_digits in Hd. rewrite Forall_forall in Hd. apply Hc. auto. Qed.
Lemma numeral_str i : 0 <= i -> numeral (str_of_int i) i.
Proof.
  intros H. rewrite str_of_int_nonneg by exact H. repeat split; auto using dec_N_nonempty, dec_N_digits.
  rewrite dec_N_val. lia.
Qed.

Lemma months_sweep :
  forallb (fun i => let name := nth i month_names [] in
    (match text_to_month_hun name with Ok m => m =? Z.of_nat i + 1 | Err _ => false end)
    && negb (mem_chr 32 name) && negb (mem_chr 44 name)) (seq 0 12) = true.
Proof. vm_compute. reflexivity. Qed.

Lemma month_name_facts m : 1 <= m <= 12 ->
  let name := nth (Z.to_nat (m - 1)) month_names [] in
  text_to_month_hun name = Ok m /\ ~ In 32%N name /\ ~ In 44%N name.
Proof.
  intros Hm name. pose proof months_sweep as S. rewrite forallb_forall in S.
  specialize (S (Z.to_nat (m - 1)) ltac:(apply in_seq; lia)). cbv zeta in S. fold name in S.
  apply andb_true_iff in S as [S S3]. apply andb_true_iff in S as [S1 S2].
  rewrite negb_true_iff in S2, S3. split; [|split].
  - destruct (text_to_month_hun name); [|discriminate]. f_equal. lia.
  - intros H. apply mem_chr_In in H. congruence.
  - intros H. apply mem_chr_In in H. congruence.
Qed.

Lemma hungarian_text_parse ys ds y m d rest :
  numeral ys y -> 1 <= m <= 12 -> numeral ds d ->
  (rest = [] \/ exists t, rest = 44%N :: t) ->
  from_hungarian_text (ys ++ u8 ". " ++ nth (Z.to_nat (m - 1)) month_names [] ++ u8 " " ++ ds ++ u8 "." ++ rest)
  = Date_ y m d.
Proof.
  intros Hy Hm Hd Hrest.
  destruct (month_name_facts m Hm) as (E & N32 & N44). set (name := nth _ _ _) in *.
  set (body := ys ++ u8 ". " ++ name ++ u8 " " ++ ds ++ u8 ".").
  assert (Ebody : before_chr 44 (ys ++ u8 ". " ++ name ++ u8 " " ++ ds ++ u8 "." ++ rest) = body).
  { replace (ys ++ u8 ". " ++ name ++ u8 " " ++ ds ++ u8 "." ++ rest) with (body ++ rest)
      by (unfold body; rewrite <- !app_assoc; reflexivity).
    assert (Hno : ~ In 44%N body).
    { unfold body. rewrite !in_app_iff. cbn [In].
      pose proof (numeral_no 44 ys y Hy ltac:(lia)). pose proof (numeral_no 44 ds d Hd ltac:(lia)).
      intuition discriminate. }
    destruct Hrest as [->|[t ->]].
    - rewrite app_nil_r. now apply before_chr_none.
    - now apply before_chr_app. }
  unfold from_hungarian_text. rewrite Ebody. unfold body.
  change (ys ++ u8 ". " ++ name ++ u8 " " ++ ds ++ u8 ".") with (ys ++ [46%N; 32%N] ++ name ++ [32%N] ++ ds ++ [46%N]).
  replace (ys ++ [46%N; 32%N] ++ name ++ [32%N] ++ ds ++ [46%N])
    with ((ys ++ [46%N]) ++ 32%N :: name ++ 32%N :: ds ++ [46%N]) by (rewrite <- app_assoc; reflexivity).
  rewrite split_chr_app.
  2:{ rewrite in_app_iff. cbn [In]. pose proof (numeral_no 32 ys y Hy ltac:(lia)). intuition discriminate. }
  rewrite split_chr_app by exact N32.
  rewrite split_chr_none.
  2:{ rewrite in_app_iff. cbn [In]. pose proof (numeral_no 32 ds d Hd ltac:(lia)). intuition discriminate. }
  unfold drop_last. rewrite !removelast_last.
  rewrite (numeral_int ys y Hy), E, (numeral_int ds d Hd). reflexivity.
Qed.

Lemma simple_string_dots ys ms ds y m d tail :
  numeral ys y -> numeral ms m -> numeral ds d -> (tail = [] \/ tail = u8 ".") ->
  from_simple_string (ys ++ u8 "." ++ ms ++ u8 "." ++ ds ++ tail) = Date_ y m d.
Proof.
  intros Hy Hm Hd Ht. unfold from_simple_string.
  assert (Hin : mem_chr 46 (ys ++ u8 "." ++ ms ++ u8 "." ++ ds ++ tail) = true).
  { apply mem_chr_In. rewrite !in_app_iff. right. left. now left. }
  rewrite Hin.
  assert (E : (if endswith [46%N] (ys ++ u8 "." ++ ms ++ u8 "." ++ ds ++ tail)
               then drop_last (ys ++ u8 "." ++ ms ++ u8 "." ++ ds ++ tail)
               else ys ++ u8 "." ++ ms ++ u8 "." ++ ds ++ tail) = ys ++ u8 "." ++ ms ++ u8 "." ++ ds).
  { destruct Ht as [->| ->].
    - rewrite app_nil_r. destruct (endswith _ _) eqn:Ee; [|reflexivity]. exfalso.
      apply endswith_spec in Ee as [t Et]. destruct Hd as (Hne & Hdd & _).
      destruct (exists_last Hne) as (ds' & c & ->). unfold ascii_digits in Hdd. rewrite Forall_forall in Hdd.
      assert (c = 46)%N.
      { rewrite !app_assoc in Et. apply app_inj_tail in Et. tauto. }
      subst c. specialize (Hdd 46%N ltac:(apply in_or_app; right; now left)). lia.
    - replace (ys ++ u8 "." ++ ms ++ u8 "." ++ ds ++ u8 ".") with ((ys ++ u8 "." ++ ms ++ u8 "." ++ ds) ++ [46%N])
        by (rewrite <- !app_assoc; reflexivity).
      assert (Ee : endswith [46%N] ((ys ++ u8 "." ++ ms ++ u8 "." ++ ds) ++ [46%N]) = true)
        by (apply endswith_spec; eauto).
      rewrite Ee. unfold drop_last. apply removelast_last. }
  rewrite E. change (u8 ".") with [46%N]. cbn [app].
  rewrite split_chr_app by (eapply numeral_no; [exact Hy|lia]).
  rewrite split_chr_app by (eapply numeral_no; [exact Hm|lia]).
  rewrite split_chr_none by (eapply numeral_no; [exact Hd|lia]).
  rewrite (numeral_int ys y Hy), (numeral_int ms m Hm), (numeral_int ds d Hd). reflexivity.
Qed.

Lemma simple_string_slashes ys ms ds y m d :
  numeral ys y -> numeral ms m -> numeral ds d ->
  from_simple_string (ys ++ u8 "/" ++ ms ++ u8 "/" ++ ds) = Date_ y m d.
Proof.
  intros Hy Hm Hd. unfold from_simple_string.
  assert (H46 : mem_chr 46 (ys ++ u8 "/" ++ ms ++ u8 "/" ++ ds) = false).
  { destruct (mem_chr _ _) eqn:E; [|reflexivity]. apply mem_chr_In in E. rewrite !in_app_iff in E. cbn [In] in E.
    pose proof (numeral_no 46 ys y Hy ltac:(lia)). pose proof (numeral_no 46 ms m Hm ltac:(lia)).
    pose proof (numeral_no 46 ds d Hd ltac:(lia)). intuition discriminate. }
  assert (H47 : mem_chr 47 (ys ++ u8 "/" ++ ms ++ u8 "/" ++ ds) = true).
  { apply mem_chr_In. rewrite !in_app_iff. right. left. now left. }
  rewrite H46, H47. change (u8 "/") with [47%N]. cbn [app].
  rewrite split_chr_app by (eapply numeral_no; [exact Hy|lia]).
  rewrite split_chr_app by (eapply numeral_no; [exact Hm|lia]).
  rewrite split_chr_none by (eapply numeral_no; [exact Hd|lia]).
  rewrite (numeral_int ys y Hy), (numeral_int ms m Hm), (numeral_int ds d Hd). reflexivity.
Qed.
