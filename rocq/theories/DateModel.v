(* Model of the Date class of hun_law/utils.py and of the part of datetime it uses. *)
From Verif Require Import PyBase NumModel.
Local Open Scope Z_scope.

(* utils.py:147-151 *)
Record date := mk_date { d_year : Z; d_month : Z; d_day : Z }.

(* CPython datetime: _is_leap, _days_before_year, _days_in_month, _days_before_month *)
Definition is_leap (y : Z) : bool :=
  (y mod 4 =? 0) && (negb (y mod 100 =? 0) || (y mod 400 =? 0)).
Definition days_before_year (y : Z) : Z :=
  let y := y - 1 in y * 365 + y / 4 - y / 100 + y / 400.
Definition days_in_month_tbl : list Z := [31; 28; 31; 30; 31; 30; 31; 31; 30; 31; 30; 31].
Definition days_before_month_tbl : list Z :=
  [0; 31; 59; 90; 120; 151; 181; 212; 243; 273; 304; 334].
Definition days_in_month (y m : Z) : Z :=
  if (m =? 2) && is_leap y then 29 else nth (Z.to_nat (m - 1)) days_in_month_tbl 0.
Definition days_before_month (y m : Z) : Z :=
  nth (Z.to_nat (m - 1)) days_before_month_tbl 0
  + (if (2 <? m) && is_leap y then 1 else 0).

(* CPython datetime: _ymd2ord *)
Definition ymd2ord (y m d : Z) : Z := days_before_year y + days_before_month y m + d.

(* CPython datetime: _ord2ymd *)
Definition ord2ymd (n0 : Z) : Z * Z * Z :=
  let n := n0 - 1 in
  let n400 := n / 146097 in let n := n mod 146097 in
  let year := n400 * 400 + 1 in
  let n100 := n / 36524 in let n := n mod 36524 in
  let n4 := n / 1461 in let n := n mod 1461 in
  let n1 := n / 365 in let n := n mod 365 in
  let year := year + n100 * 100 + n4 * 4 + n1 in
  if (n1 =? 4) || (n100 =? 4) then (year - 1, 12, 31)
  else
    let leapyear := (n1 =? 3) && (negb (n4 =? 24) || (n100 =? 3)) in
    let month := Z.shiftr (n + 50) 5 in
    let preceding := nth (Z.to_nat (month - 1)) days_before_month_tbl 0
                     + (if (2 <? month) && leapyear then 1 else 0) in
    let '(month, preceding) :=
      if n <? preceding then
        let month := month - 1 in
        (month, preceding - (nth (Z.to_nat (month - 1)) days_in_month_tbl 0
                             + (if (month =? 2) && leapyear then 1 else 0)))
      else (month, preceding) in
    (year, month, n - preceding + 1).

Definition maxordinal : Z := 3652059.

Definition fits_c_int (i : Z) : bool := (- 2147483648 <=? i) && (i <=? 2147483647).

(* datetime.date(y, m, d): OverflowError for arguments outside C int, ValueError for others *)
Definition datetime_date (y m d : Z) : res (Z * Z * Z) :=
  if negb (fits_c_int y && fits_c_int m && fits_c_int d) then Err OverflowError
  else if (1 <=? y) && (y <=? 9999) && (1 <=? m) && (m <=? 12)
          && (1 <=? d) && (d <=? days_in_month y m)
  then Ok (y, m, d) else Err ValueError.

(* utils.py:153-154: the constructor checks the date *)
Definition Date_ (y m d : Z) : res date :=
  '(_, _, _) <- datetime_date y m d ;;
  Ok (mk_date y m d).

(* utils.py:177-179.  timedelta(days=n) raises OverflowError beyond 999999999 days; date +
   timedelta raises OverflowError outside ordinals 1..maxordinal. *)
Definition add_days (dt : date) (days : Z) : res date :=
  '(y, m, d) <- datetime_date (d_year dt) (d_month dt) (d_day dt) ;;
  if negb ((- 999999999 <=? days) && (days <=? 999999999)) then Err OverflowError
  else
    let o := ymd2ord y m d + days in
    if (1 <=? o) && (o <=? maxordinal) then
      let '(y', m', d') := ord2ymd o in Date_ y' m' d'
    else Err OverflowError.

(* utils.py:156-161: unpacking into exactly three names raises ValueError otherwise *)
Definition from_hungarian_text (s : pystr) : res date :=
  let s := before_chr 44 s in
  match split_chr 32 s with
  | [year; month; day] =>
      y <- py_int (drop_last year) ;;
      m <- text_to_month_hun month ;;
      d <- py_int (drop_last day) ;;
      Date_ y m d
  | _ => Err ValueError
  end.

(* utils.py:163-175 *)
Definition from_simple_string (s : pystr) : res date :=
  let parts :=
    if mem_chr 46 s then
      split_chr 46 (if endswith [46%N] s then drop_last s else s)
    else if mem_chr 47 s then split_chr 47 s
    else [] in
  match parts with
  | [a; b; c] => y <- py_int a ;; m <- py_int b ;; d <- py_int c ;; Date_ y m d
  | _ => Err ValueError
  end.
