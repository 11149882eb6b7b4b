(* C13, C14: dates. *)
From Verif Require Import PyBase PyBaseFacts NumModel DateModel DateSpec DateProofs.
Local Open Scope Z_scope.

(** C13: the constructor accepts exactly the Gregorian dates of years 1..9999. *)
Theorem C13_constructor : forall y m d,
  (Date_ y m d = Ok (mk_date y m d) <-> supported (mk_date y m d)) /\
  (~ supported (mk_date y m d) -> Date_ y m d = Err ValueError \/ Date_ y m d = Err OverflowError) /\
  (~ supported (mk_date y m d) -> (forall x, In x [y; m; d] -> -2147483648 <= x <= 2147483647) ->
     Date_ y m d = Err ValueError).
Proof.
  intros y m d. split; [symmetry; apply Date_ok|]. split; [apply Date_err|].
  intros H Hx. apply Date_overflow; auto; apply Hx; cbn; tauto.
Qed.
Print Assumptions C13_constructor.
Example C13_constructor_ex : Date_ 2000 2 29 = Ok (mk_date 2000 2 29) /\ Date_ 1900 2 29 = Err ValueError.
Proof. split; reflexivity. Qed.

(* Adding n days is going to tomorrow n times, until year 9999 ends. *)
Theorem C13_forward : forall a n b, supported a -> days_later n a b ->
  add_days a (Z.of_nat n) = if d_year b <=? 9999 then Ok b else Err OverflowError.
Proof. exact add_days_forward. Qed.
Print Assumptions C13_forward.
Theorem C13_days_later_total : forall n a, gregorian a -> exists b, days_later n a b.
Proof. exact days_later_exists. Qed.
Print Assumptions C13_days_later_total.
Example C13_forward_ex : add_days (mk_date 2019 12 31) 60 = Ok (mk_date 2020 2 29).
Proof. vm_compute. reflexivity. Qed.

(* Subtracting n days finds the date that is n days earlier, if there is one. *)
Theorem C13_backward : forall b n, supported b ->
  (exists a, gregorian a /\ days_later n a b /\ add_days b (- Z.of_nat n) = Ok a) \/
  ((forall a, gregorian a -> ~ days_later n a b) /\ add_days b (- Z.of_nat n) = Err OverflowError).
Proof. exact add_days_backward. Qed.
Print Assumptions C13_backward.

Theorem C13_additive : forall a m n b, add_days a m = Ok b ->
  forall c, add_days b n = Ok c <-> add_days a (m + n) = Ok c.
Proof. exact add_days_add. Qed.
Print Assumptions C13_additive.
Theorem C13_undo : forall a n b, add_days a n = Ok b -> add_days b (- n) = Ok a.
Proof. exact add_days_undo. Qed.
Print Assumptions C13_undo.
Example C13_undo_ex : add_days (mk_date 2020 2 29) (-60) = Ok (mk_date 2019 12 31).
Proof. vm_compute. reflexivity. Qed.

(** C14: written dates are read back, with leading zeros and trailing text after a comma. *)
Theorem C14_hungarian : forall ys ds y m d rest,
  numeral ys y -> 1 <= m <= 12 -> numeral ds d ->
  (rest = [] \/ exists t, rest = u8 "," ++ t) ->
  from_hungarian_text (ys ++ u8 ". " ++ nth (Z.to_nat (m - 1)) month_names [] ++ u8 " " ++ ds ++ u8 "." ++ rest)
  = Date_ y m d.
Proof. exact hungarian_text_parse. Qed.
Print Assumptions C14_hungarian.
Example C14_hungarian_ex : from_hungarian_text (u8 "2011. június 28., kedd") = Ok (mk_date 2011 6 28).
Proof. vm_compute. reflexivity. Qed.

Theorem C14_dots : forall ys ms ds y m d tail,
  numeral ys y -> numeral ms m -> numeral ds d -> (tail = [] \/ tail = u8 ".") ->
  from_simple_string (ys ++ u8 "." ++ ms ++ u8 "." ++ ds ++ tail) = Date_ y m d.
Proof. exact simple_string_dots. Qed.
Print Assumptions C14_dots.
Theorem C14_slashes : forall ys ms ds y m d,
  numeral ys y -> numeral ms m -> numeral ds d ->
  from_simple_string (ys ++ u8 "/" ++ ms ++ u8 "/" ++ ds) = Date_ y m d.
Proof. exact simple_string_slashes. Qed.
Print Assumptions C14_slashes.
Example C14_simple_ex : from_simple_string (u8 "2011.06.28.") = Ok (mk_date 2011 6 28)
  /\ from_simple_string (u8 "2011/6/28") = Ok (mk_date 2011 6 28)
  /\ from_simple_string (u8 "2011-6-28") = Err ValueError.
Proof. vm_compute. auto. Qed.

(* in particular for the usual way of writing numbers *)
Theorem C14_roundtrip : forall dt, supported dt ->
  let y := str_of_int (d_year dt) in let m := str_of_int (d_month dt) in let d := str_of_int (d_day dt) in
  from_hungarian_text (y ++ u8 ". " ++ nth (Z.to_nat (d_month dt - 1)) month_names [] ++ u8 " " ++ d ++ u8 ".") = Ok dt /\
  from_simple_string (y ++ u8 "." ++ m ++ u8 "." ++ d) = Ok dt /\
  from_simple_string (y ++ u8 "/" ++ m ++ u8 "/" ++ d) = Ok dt.
Proof.
  intros dt H. destruct dt as [y m d]. cbn [d_year d_month d_day]. cbv zeta.
  pose proof H as [[Hy (len & Hl & Hd)] _]. cbn in *. apply month_length_iff in Hl as [Hm _].
  pose proof (proj1 (Date_ok y m d) H) as E. split; [|split].
  - rewrite <- E. rewrite <- (app_nil_r (u8 ".")).
    apply (hungarian_text_parse (str_of_int y) (str_of_int d)); auto using numeral_str; apply numeral_str; destruct Hd; auto.
    + apply (Z.le_trans _ 1); [discriminate|assumption].
    + apply (Z.le_trans _ 1); [discriminate|assumption].
  - rewrite <- E. rewrite <- (app_nil_r (str_of_int d)).
    apply simple_string_dots; auto; apply numeral_str;
      apply (Z.le_trans _ 1); try discriminate; tauto.
  - rewrite <- E. apply simple_string_slashes; apply numeral_str;
      apply (Z.le_trans _ 1); try discriminate; tauto.
Qed.
Print Assumptions C14_roundtrip.
