(* Independent specification of the Gregorian calendar and of written dates. *)
From Verif Require Import PyBase PyBaseFacts DateModel.
Local Open Scope Z_scope.

(** A year is leap when divisible by 4, except centuries not divisible by 400. *)
Definition leap (y : Z) : Prop := (4 | y) /\ (~ (100 | y) \/ (400 | y)).

Inductive month_length : Z -> Z -> Z -> Prop :=
| ml_31 y m : In m [1; 3; 5; 7; 8; 10; 12] -> month_length y m 31
| ml_30 y m : In m [4; 6; 9; 11] -> month_length y m 30
| ml_feb_leap y : leap y -> month_length y 2 29
| ml_feb y : ~ leap y -> month_length y 2 28.

(* a Gregorian date, in any year from 1 on *)
Definition gregorian (dt : date) : Prop :=
  1 <= d_year dt /\ exists len, month_length (d_year dt) (d_month dt) len /\ 1 <= d_day dt <= len.
Definition supported (dt : date) : Prop := gregorian dt /\ d_year dt <= 9999.

(** The day after *)
Inductive tomorrow : date -> date -> Prop :=
| tm_day y m d len : month_length y m len -> d < len -> tomorrow (mk_date y m d) (mk_date y m (d + 1))
| tm_month y m len : month_length y m len -> m < 12 -> tomorrow (mk_date y m len) (mk_date y (m + 1) 1)
| tm_year y : tomorrow (mk_date y 12 31) (mk_date (y + 1) 1 1).

(* n days later *)
Inductive days_later : nat -> date -> date -> Prop :=
| dl_same dt : days_later 0 dt dt
| dl_step n a b c : tomorrow a b -> days_later n b c -> days_later (S n) a c.

Definition month_names : list pystr :=
  [ u8 "január"; u8 "február"; u8 "március"; u8 "április"; u8 "május"; u8 "június";
    u8 "július"; u8 "augusztus"; u8 "szeptember"; u8 "október"; u8 "november";
    u8 "december" ].

(* [digits s n]: s is a decimal numeral (leading zeros allowed) for n *)
Definition numeral (s : pystr) (n : Z) : Prop :=
  s <> [] /\ ascii_digits s /\ Z.of_N (digits_val s) = n.
