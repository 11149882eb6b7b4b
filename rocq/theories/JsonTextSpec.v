(* JSON texts and what they mean (RFC 8259, with the json module's names for numbers that are not finite). *)
From Coq Require Import Floats.SpecFloat.
From Verif Require Import PyBase LineModel D2oModel D2oSpec JsonTextModel.
Local Open Scope Z_scope.

Definition blank (s : pystr) : Prop := Forall (fun c => In c [9; 10; 13; 32]%N) s.
(* four hexadecimal digits *)
Inductive hex_char : N -> N -> Prop :=
| hc_digit : forall n, (n < 10)%N -> hex_char n (48 + n)
| hc_lower : forall n, (10 <= n < 16)%N -> hex_char n (87 + n)
| hc_upper : forall n, (10 <= n < 16)%N -> hex_char n (55 + n).
Inductive hex_quad : N -> pystr -> Prop :=
| hq : forall a b c d a' b' c' d', hex_char a a' -> hex_char b b' -> hex_char c c' -> hex_char d d' ->
    hex_quad (((a * 16 + b) * 16 + c) * 16 + d) [a'; b'; c'; d'].
Definition surrogate (c : N) : Prop := (55296 <= c < 57344)%N.
(* what is between the quotes *)
Inductive json_chars : pystr -> pystr -> Prop :=
| jc_none : json_chars [] []
| jc_plain : forall c s t, (32 <= c)%N -> c <> 34%N -> c <> 92%N -> json_chars s t -> json_chars (c :: s) (c :: t)
| jc_short : forall c e s t, In (c, e) [(34, 34); (92, 92); (47, 47); (8, 98); (12, 102); (10, 110); (13, 114); (9, 116)]%N ->
    json_chars s t -> json_chars (c :: s) ([92%N; e] ++ t)
| jc_hex : forall c h s t, hex_quad c h -> ~ surrogate c -> json_chars s t -> json_chars (c :: s) ([92; 117]%N ++ h ++ t)
| jc_pair : forall a b h k s t, hex_quad (55296 + a) h -> hex_quad (56320 + b) k -> (a < 1024)%N -> (b < 1024)%N -> json_chars s t ->
    json_chars ((65536 + a * 1024 + b)%N :: s) ([92; 117]%N ++ h ++ [92; 117]%N ++ k ++ t).
(* numbers with a fraction or an exponent *)
Definition digit (c : N) : Prop := (48 <= c <= 57)%N.
Definition some_digits (s : pystr) : Prop := s <> [] /\ Forall digit s.
Definition whole (s : pystr) : Prop := s = u8 "0" \/ exists c t, s = c :: t /\ (49 <= c <= 57)%N /\ Forall digit t.
Definition fraction (s : pystr) : Prop := exists t, s = u8 "." ++ t /\ some_digits t.
Definition exponent (s : pystr) : Prop := exists e sign t, s = e ++ sign ++ t /\ In e [u8 "e"; u8 "E"] /\ In sign [[]; u8 "+"; u8 "-"] /\ some_digits t.
Definition decimal (s : pystr) : Prop := exists sign i f e, s = sign ++ i ++ f ++ e /\ In sign [[]; u8 "-"] /\ whole i /\
  (f = [] \/ fraction f) /\ (e = [] \/ exponent e) /\ (fraction f \/ exponent e).

Section texts.
Variable io : float_io.
Inductive json_text : value -> pystr -> Prop :=
| jt_null : json_text VNone (u8 "null")
| jt_true : json_text (VBool true) (u8 "true")
| jt_false : json_text (VBool false) (u8 "false")
| jt_int : forall i, json_text (VInt i) (str_of_int i)
| jt_float : forall t, decimal t -> json_text (VFloat (fl_read io t)) t
| jt_nan : json_text (VFloat S754_nan) (u8 "NaN")
| jt_infinity : json_text (VFloat (S754_infinity false)) (u8 "Infinity")
| jt_minus_infinity : json_text (VFloat (S754_infinity true)) (u8 "-Infinity")
| jt_string : forall s t, json_chars s t -> json_text (VStr s) (u8 """" ++ t ++ u8 """")
| jt_no_items : forall b, blank b -> json_text (VList []) (u8 "[" ++ b ++ u8 "]")
| jt_list : forall l t, json_items l t -> json_text (VList l) (u8 "[" ++ t ++ u8 "]")
| jt_no_members : forall b, blank b -> json_text (VDict []) (u8 "{" ++ b ++ u8 "}")
| jt_dict : forall l t, json_members l t -> NoDup (map fst l) -> json_text (VDict l) (u8 "{" ++ t ++ u8 "}")
with json_items : list value -> pystr -> Prop :=
| ji_one : forall v t b1 b2, json_text v t -> blank b1 -> blank b2 -> json_items [v] (b1 ++ t ++ b2)
| ji_more : forall v t l u b1 b2, json_text v t -> blank b1 -> blank b2 -> json_items l u -> json_items (v :: l) (b1 ++ t ++ b2 ++ u8 "," ++ u)
with json_members : list (pystr * value) -> pystr -> Prop :=
| jm_one : forall k kt v t b1 b2 b3 b4, json_chars k kt -> json_text v t -> blank b1 -> blank b2 -> blank b3 -> blank b4 ->
    json_members [(k, v)] (b1 ++ u8 """" ++ kt ++ u8 """" ++ b2 ++ u8 ":" ++ b3 ++ t ++ b4)
| jm_more : forall k kt v t l u b1 b2 b3 b4, json_chars k kt -> json_text v t -> blank b1 -> blank b2 -> blank b3 -> blank b4 -> json_members l u ->
    json_members ((k, v) :: l) (b1 ++ u8 """" ++ kt ++ u8 """" ++ b2 ++ u8 ":" ++ b3 ++ t ++ b4 ++ u8 "," ++ u).
End texts.
Scheme json_text_mut := Minimality for json_text Sort Prop with json_items_mut := Minimality for json_items Sort Prop with json_members_mut := Minimality for json_members Sort Prop.
Combined Scheme json_mutind from json_text_mut, json_items_mut, json_members_mut.

(* What is asked of repr and float: finite numbers are written with a fraction or an exponent, and read as themselves. *)
Definition finite_float (f : pyfloat) : Prop := f <> S754_nan /\ forall s, f <> S754_infinity s.
Definition float_law (io : float_io) : Prop := forall f, finite_float f -> decimal (fl_repr io f) /\ fl_read io (fl_repr io f) = f.
(* all strings in a value, keys too *)
Inductive string_in : pystr -> value -> Prop :=
| si_self : forall s, string_in s (VStr s)
| si_item : forall s v l, In v l -> string_in s v -> string_in s (VList l)
| si_key : forall s v l, In (s, v) l -> string_in s (VDict l)
| si_value : forall s k v l, In (k, v) l -> string_in s v -> string_in s (VDict l).
(* characters that are no half of a pair *)
Definition whole_chars (s : pystr) : Prop := Forall (fun c => (c < 1114112)%N /\ ~ surrogate c) s.
(* printable ASCII characters only *)
Definition ascii_text (s : pystr) : Prop := Forall (fun c => (32 <= c < 127)%N) s.
(* a part of t from its beginning, but not all of it *)
Definition cut_short (p t : pystr) : Prop := exists q, t = p ++ q /\ q <> [].
(* v is the value of the last member with the key k *)
Definition last_value (k : pystr) (v : value) (l : list (pystr * value)) : Prop := exists a b, l = a ++ (k, v) :: b /\ ~ In k (map fst b).
