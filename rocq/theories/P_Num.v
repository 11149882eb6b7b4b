(* Property theorems C01, C02, C03, C07: numerals and letters. *)
From Verif Require Import PyBase NumModel NumSpec NumProofs.
Local Open Scope Z_scope.

(** C01: the roman numeral of every i >= 1 is the standard one and parses back to i;
    for i <= 0 the numeral is empty, and the empty string is rejected. *)
Theorem C01_roman_roundtrip : forall i, 1 <= i ->
  exists s, int_to_text_roman i = Ok s /\ text_to_int_roman s = Ok i.
Proof.
  exact (fun i H => ex_intro _ (roman i)
    (conj (int_to_text_roman_pos i (Z.le_trans 0 1 i ltac:(discriminate) H)) (text_to_int_roman_roman i H))).
Qed.
Print Assumptions C01_roman_roundtrip.
Example C01_roman_roundtrip_ex : int_to_text_roman 4949 = Ok (u8 "MMMMCMXLIX")
  /\ text_to_int_roman (u8 "MMMMCMXLIX") = Ok 4949.
Proof. vm_compute. split; reflexivity. Qed.

Theorem C01_roman_standard : forall i, 0 <= i -> int_to_text_roman i = Ok (roman i).
Proof. exact int_to_text_roman_pos. Qed.
Print Assumptions C01_roman_standard.
Example C01_roman_standard_ex : roman 1998 = u8 "MCMXCVIII".
Proof. reflexivity. Qed.

Theorem C01_roman_nonpositive : forall i, i <= 0 ->
  int_to_text_roman i = Ok [] /\ text_to_int_roman [] = Err ValueError.
Proof. exact (fun i H => conj (int_to_text_roman_nonpos i H) eq_refl). Qed.
Print Assumptions C01_roman_nonpositive.
Example C01_roman_nonpositive_ex : int_to_text_roman (-7) = Ok [].
Proof. reflexivity. Qed.

(* text_to_int_roman accepts exactly the non-empty strings of roman letters; anything else is a ValueError *)
Theorem C01_roman_accepts : forall s,
  ((exists v, text_to_int_roman s = Ok v) <-> s <> [] /\ Forall (fun c => In c roman_letters) s) /\
  (forall e, text_to_int_roman s = Err e -> e = ValueError) /\
  (forall v, text_to_int_roman s = Ok v -> 1 <= v).
Proof. exact text_to_int_roman_accepts. Qed.
Print Assumptions C01_roman_accepts.
Example C01_roman_accepts_ex : text_to_int_roman (u8 "XIIX") = Ok 20 /\ text_to_int_roman (u8 "XII/A") = Err ValueError.
Proof. vm_compute. split; reflexivity. Qed.

(** C02: arabic -> roman -> arabic with a postfix is the identity, and the roman form is the
    numeral followed by the postfix, if the postfix starts with neither a digit nor a roman
    letter and has no newline. *)
Theorem C02_postfix_roundtrip : forall n postfix,
  1 <= n ->
  (forall c t, postfix = c :: t -> ~ (48 <= c <= 57)%N /\ ~ In c roman_letters) ->
  ~ In 10%N postfix ->
  arabic_to_roman_with_postfix (str_of_int n ++ postfix) = Ok (roman n ++ postfix) /\
  roman_to_arabic_with_postfix (roman n ++ postfix) = Ok (str_of_int n ++ postfix).
Proof. exact postfix_roundtrip. Qed.
Print Assumptions C02_postfix_roundtrip.
Example C02_postfix_roundtrip_ex :
  arabic_to_roman_with_postfix (u8 "1998/A") = Ok (u8 "MCMXCVIII/A") /\
  roman_to_arabic_with_postfix (u8 "MCMXCVIII/A") = Ok (u8 "1998/A").
Proof. vm_compute. split; reflexivity. Qed.

(* Each condition is needed: a roman letter after the number is absorbed, a newline is cut
   off together with what follows, and "0" becomes text that is then rejected. *)
Theorem C02_unconditional_refuted :
  (exists s r t, arabic_to_roman_with_postfix s = Ok r /\ roman_to_arabic_with_postfix r = Ok t /\
     t <> s /\ s = u8 "1V") /\
  (exists s r t, arabic_to_roman_with_postfix s = Ok r /\ roman_to_arabic_with_postfix r = Ok t /\
     t <> s /\ In 10%N s) /\
  (exists s r, arabic_to_roman_with_postfix s = Ok r /\
     roman_to_arabic_with_postfix r = Err ValueError /\ s = u8 "0").
Proof. exact postfix_unconditional_refuted. Qed.
Print Assumptions C02_unconditional_refuted.

(** C03: int_to_text_hun is defined exactly on 1..100 and gives the Hungarian ordinal;
    text_to_int_hun accepts exactly the ordinals in any letter case. *)
Theorem C03_ordinal_text : forall i,
  (1 <= i <= 100 -> int_to_text_hun i = Ok (nth (Z.to_nat (i - 1)) hungarian_ordinals [])) /\
  (~ (1 <= i <= 100) -> int_to_text_hun i = Err ValueError).
Proof. exact (fun i => conj (int_to_text_hun_in i) (int_to_text_hun_out i)). Qed.
Print Assumptions C03_ordinal_text.
Example C03_ordinal_text_ex : int_to_text_hun 89 = Ok (u8 "nyolcvankilencedik").
Proof. vm_compute. reflexivity. Qed.

Theorem C03_ordinal_parse : forall s v,
  text_to_int_hun s = Ok v <-> (1 <= v <= 100 /\ int_to_text_hun v = Ok (str_lower s)).
Proof. exact text_to_int_hun_iff. Qed.
Print Assumptions C03_ordinal_parse.
Example C03_ordinal_parse_ex : text_to_int_hun (u8 "HUSZONÖTÖDIK") = Ok 25.
Proof. vm_compute. reflexivity. Qed.

Theorem C03_ordinal_reject : forall s,
  (forall v, text_to_int_hun s <> Ok v) -> text_to_int_hun s = Err ValueError.
Proof. exact text_to_int_hun_reject. Qed.
Print Assumptions C03_ordinal_reject.
Example C03_ordinal_reject_ex : text_to_int_hun (u8 "egyedik") = Err ValueError.
Proof. vm_compute. reflexivity. Qed.

Theorem C03_ordinal_inverse : forall i s, int_to_text_hun i = Ok s ->
  text_to_int_hun s = Ok i /\ text_to_int_hun (str_upper s) = Ok i.
Proof. exact ordinal_inverse. Qed.
Print Assumptions C03_ordinal_inverse.

Theorem C03_ordinal_injective : forall i j s,
  int_to_text_hun i = Ok s -> int_to_text_hun j = Ok s -> i = j.
Proof. exact ordinal_injective. Qed.
Print Assumptions C03_ordinal_injective.

(** C07: among the letters of the list alphabet, is_next_letter_hun is exactly "directly
    follows, digraphs being optional"; besides it accepts only consecutive code points; it is
    strictly increasing, hence irreflexive and without cycles. *)
Theorem C07_letters : forall alphabet,
  alphabet = list_alphabet \/ alphabet = list_alphabet_upper ->
  forall a b, In a alphabet -> In b alphabet ->
  is_next_letter_hun a b = true <-> follows_in alphabet a b.
Proof. exact letters_both. Qed.
Print Assumptions C07_letters.
Example C07_letters_ex : is_next_letter_hun (u8 "sz") (u8 "t") = true
  /\ is_next_letter_hun (u8 "s") (u8 "t") = true /\ is_next_letter_hun (u8 "s") (u8 "ty") = false.
Proof. repeat split; reflexivity. Qed.

Theorem C07_only_letters_or_consecutive : forall a b, is_next_letter_hun a b = true ->
  (In a list_alphabet /\ In b list_alphabet) \/
  (In a list_alphabet_upper /\ In b list_alphabet_upper) \/
  (exists c, a = [c] /\ b = [(c + 1)%N]).
Proof. exact letters_other. Qed.
Print Assumptions C07_only_letters_or_consecutive.

Theorem C07_increasing : forall a b, is_next_letter_hun a b = true -> str_ltb a b = true.
Proof. exact letters_lt. Qed.
Print Assumptions C07_increasing.
