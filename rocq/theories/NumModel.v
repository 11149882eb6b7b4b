(* Model of the numeral functions of hun_law/utils.py. *)
From Verif Require Import PyBase.
Local Open Scope Z_scope.

(** * Hungarian ordinals *)

(* utils.py:212-225, SPECIAL_VALUES, in dictionary (insertion) order *)
Definition special_values : list (Z * pystr) :=
  [ (1, u8 "első"); (2, u8 "második"); (10, u8 "tizedik"); (20, u8 "huszadik");
    (30, u8 "harmincadik"); (40, u8 "negyvenedik"); (50, u8 "ötvenedik");
    (60, u8 "hatvanadik"); (70, u8 "hetvenedik"); (80, u8 "nyolcvanadik");
    (90, u8 "kilencvenedik"); (100, u8 "századik") ].

(* utils.py:226-236 *)
Definition ones_digit : list (pystr * Z) :=
  [ (u8 "egyedik", 1); (u8 "kettedik", 2); (u8 "harmadik", 3); (u8 "negyedik", 4);
    (u8 "ötödik", 5); (u8 "hatodik", 6); (u8 "hetedik", 7); (u8 "nyolcadik", 8);
    (u8 "kilencedik", 9) ].

(* utils.py:237-248 *)
Definition tens_digit : list (pystr * Z) :=
  [ (u8 "", 0); (u8 "tizen", 10); (u8 "huszon", 20); (u8 "harminc", 30);
    (u8 "negyven", 40); (u8 "ötven", 50); (u8 "hatvan", 60); (u8 "hetven", 70);
    (u8 "nyolcvan", 80); (u8 "kilencven", 90) ].

(* utils.py:249-260, the sequence of assignments "dict[text] = value" that init_text_to_int_dict
   makes; both dictionaries are filled by the same sequence *)
Definition ordinal_assignments : list (pystr * Z) :=
  flat_map (fun '(ones_text, ones_val) =>
    flat_map (fun '(tens_text, tens_val) =>
      let value := tens_val + ones_val in
      if existsb (fun e => Z.eqb (fst e) value) special_values then []
      else [ (tens_text ++ ones_text, value) ]) tens_digit) ones_digit
  ++ map (fun '(value, text) => (text, value)) special_values.

(* Reading a Python dict after a sequence of assignments: the last one for the key counts. *)
Definition text_to_int_dict (s : pystr) : option Z :=
  option_map snd (List.find (fun e => str_eqb (fst e) s) (rev ordinal_assignments)).
Definition int_to_text_dict (i : Z) : option pystr :=
  option_map fst (List.find (fun e => Z.eqb (snd e) i) (rev ordinal_assignments)).

(* utils.py:263-270 *)
Definition text_to_int_hun (s : pystr) : res Z :=
  match text_to_int_dict (str_lower s) with
  | None => Err ValueError
  | Some v => Ok v
  end.

(* utils.py:273-280 *)
Definition int_to_text_hun (i : Z) : res pystr :=
  match int_to_text_dict i with
  | None => Err ValueError
  | Some t => Ok t
  end.

(** * Roman numerals *)

(* utils.py:283-288 *)
Definition roman_numerals : list (pystr * Z) :=
  [ (u8 "M", 1000); (u8 "CM", 900); (u8 "D", 500); (u8 "CD", 400);
    (u8 "C", 100); (u8 "XC", 90); (u8 "L", 50); (u8 "XL", 40);
    (u8 "X", 10); (u8 "IX", 9); (u8 "V", 5); (u8 "IV", 4); (u8 "I", 1) ].

(* utils.py:291-300.  The while loop runs on fuel; [None] means the loop did not finish
   within the fuel (int_to_text_roman_total shows that Z.to_nat i steps always suffice). *)
Fixpoint int_to_text_roman_loop (fuel : nat) (i : Z) (result : pystr) : option pystr :=
  if 0 <? i then
    match fuel with
    | O => None
    | S f =>
        match List.find (fun '(_, val) => val <=? i) roman_numerals with
        | Some (text, val) => int_to_text_roman_loop f (i - val) (result ++ text)
        | None => int_to_text_roman_loop f i result
        end
    end
  else Some result.

Definition int_to_text_roman (i : Z) : res pystr :=
  match int_to_text_roman_loop (Z.to_nat i) i [] with
  | Some s => Ok s
  | None => Err OutOfFuel
  end.

(* utils.py:303-315.  Each round of the while loop removes at least one character, so
   [List.length s] rounds suffice; the fuel never decides the result. *)
Fixpoint roman_prefix_loop (fuel : nat) (s : pystr) (result : Z) : Z * pystr :=
  match fuel with
  | O => (result, s)
  | S f =>
      match s with
      | [] => (result, s)
      | _ =>
          match List.find (fun '(text, _) => str_eqb text (firstn (List.length text) s))
                     roman_numerals with
          | Some (text, val) =>
              roman_prefix_loop f (skipn (List.length text) s) (result + val)
          | None => (result, s)
          end
      end
  end.

Definition text_to_int_roman_with_postfix (s : pystr) : res (Z * pystr) :=
  let '(result, postfix) := roman_prefix_loop (List.length s) s 0 in
  if result =? 0 then Err ValueError else Ok (result, postfix).

(* utils.py:318-322 *)
Definition text_to_int_roman (s : pystr) : res Z :=
  '(result, postfix) <- text_to_int_roman_with_postfix s ;;
  match postfix with
  | [] => Ok result
  | _ => Err ValueError
  end.

Definition is_ascii_digit (c : N) : bool := ((48 <=? c) && (c <=? 57))%N.
Definition not_newline (c : N) : bool := negb (c =? 10)%N.

(* utils.py:325, NUMBER_FINDER_RE (digits, then any characters) used with match(): its two groups.
   "." does not match a newline, so group 2 stops before the first one. *)
Definition number_finder (s : pystr) : option (pystr * pystr) :=
  let g1 := take_while is_ascii_digit s in
  match g1 with
  | [] => None
  | _ => Some (g1, take_while not_newline (skipn (List.length g1) s))
  end.

(* utils.py:328-332 *)
Definition arabic_to_roman_with_postfix (s : pystr) : res pystr :=
  match number_finder s with
  | None => Err ValueError
  | Some (g1, g2) =>
      n <- py_int g1 ;;
      r <- int_to_text_roman n ;;
      Ok (r ++ g2)
  end.

(* utils.py:335-337 *)
Definition roman_to_arabic_with_postfix (s : pystr) : res pystr :=
  '(result, postfix) <- text_to_int_roman_with_postfix s ;;
  Ok (str_of_int result ++ postfix).

(** * Letters and months *)

(* utils.py:340 *)
Definition hungarian_uppercase_chars : list N :=
  u8 "ABCDEFGHIJKLMNOPQRSTUVWXYZÉÁŐÚŰÖÜÓÍ".

(* utils.py:343-347 *)
Definition is_uppercase_hun (s : pystr) : bool :=
  forallb (fun c => mem_chr c hungarian_uppercase_chars) s.

(* utils.py:384-401 *)
Definition special_next_letter_pairs : list (pystr * pystr) :=
  [ (u8 "g", u8 "gy"); (u8 "gy", u8 "h"); (u8 "n", u8 "ny"); (u8 "ny", u8 "o");
    (u8 "s", u8 "sz"); (u8 "sz", u8 "t"); (u8 "t", u8 "ty"); (u8 "ty", u8 "u");
    (u8 "G", u8 "GY"); (u8 "GY", u8 "H"); (u8 "N", u8 "NY"); (u8 "NY", u8 "O");
    (u8 "S", u8 "SZ"); (u8 "SZ", u8 "T"); (u8 "T", u8 "TY"); (u8 "TY", u8 "U") ].

(* utils.py:404-409 *)
Definition is_next_letter_hun (a b : pystr) : bool :=
  if existsb (fun '(x, y) => str_eqb x a && str_eqb y b) special_next_letter_pairs then true
  else match a, b with
       | [x], [y] => (x + 1 =? y)%N
       | _, _ => false
       end.

(* utils.py:412-425 *)
Definition months_hun : list pystr :=
  [ u8 "január"; u8 "február"; u8 "március"; u8 "április"; u8 "május"; u8 "június";
    u8 "július"; u8 "augusztus"; u8 "szeptember"; u8 "október"; u8 "november";
    u8 "december" ].

Fixpoint index_str (x : pystr) (l : list pystr) : option nat :=
  match l with
  | [] => None
  | y :: t => if str_eqb x y then Some O else option_map S (index_str x t)
  end.

(* utils.py:428-431 *)
Definition text_to_month_hun (s : pystr) : res Z :=
  match index_str s months_hun with
  | None => Err KeyError
  | Some i => Ok (Z.of_nat i + 1)
  end.
