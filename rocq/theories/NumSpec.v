(* Independent specifications for the numeral functions: what a roman numeral is, which
   words are the Hungarian ordinals, and what the list alphabet looks like. *)
From Verif Require Import PyBase.
Local Open Scope Z_scope.

(** Roman numerals in the standard additive-subtractive notation, written digit by digit:
    as many M as there are thousands, then the usual groups for hundreds, tens and ones. *)
Definition roman_hundreds : list pystr :=
  [u8 ""; u8 "C"; u8 "CC"; u8 "CCC"; u8 "CD"; u8 "D"; u8 "DC"; u8 "DCC"; u8 "DCCC"; u8 "CM"].
Definition roman_tens : list pystr :=
  [u8 ""; u8 "X"; u8 "XX"; u8 "XXX"; u8 "XL"; u8 "L"; u8 "LX"; u8 "LXX"; u8 "LXXX"; u8 "XC"].
Definition roman_ones : list pystr :=
  [u8 ""; u8 "I"; u8 "II"; u8 "III"; u8 "IV"; u8 "V"; u8 "VI"; u8 "VII"; u8 "VIII"; u8 "IX"].

Definition group (g : list pystr) (i : Z) : pystr := nth (Z.to_nat (i mod 10)) g [].

Definition roman (i : Z) : pystr :=
  repeat 77%N (Z.to_nat (i / 1000)) ++
  group roman_hundreds (i / 100) ++ group roman_tens (i / 10) ++ group roman_ones i.

Definition roman_letters : pystr := u8 "IVXLCDM".

(** The Hungarian ordinals from 1 to 100, in order. *)
Definition hungarian_ordinals : list pystr :=
  [ u8 "első"; u8 "második"; u8 "harmadik"; u8 "negyedik"; u8 "ötödik";
    u8 "hatodik"; u8 "hetedik"; u8 "nyolcadik"; u8 "kilencedik"; u8 "tizedik";
    u8 "tizenegyedik"; u8 "tizenkettedik"; u8 "tizenharmadik"; u8 "tizennegyedik";
    u8 "tizenötödik"; u8 "tizenhatodik"; u8 "tizenhetedik"; u8 "tizennyolcadik";
    u8 "tizenkilencedik"; u8 "huszadik";
    u8 "huszonegyedik"; u8 "huszonkettedik"; u8 "huszonharmadik"; u8 "huszonnegyedik";
    u8 "huszonötödik"; u8 "huszonhatodik"; u8 "huszonhetedik"; u8 "huszonnyolcadik";
    u8 "huszonkilencedik"; u8 "harmincadik";
    u8 "harmincegyedik"; u8 "harminckettedik"; u8 "harmincharmadik"; u8 "harmincnegyedik";
    u8 "harmincötödik"; u8 "harminchatodik"; u8 "harminchetedik"; u8 "harmincnyolcadik";
    u8 "harminckilencedik"; u8 "negyvenedik";
    u8 "negyvenegyedik"; u8 "negyvenkettedik"; u8 "negyvenharmadik"; u8 "negyvennegyedik";
    u8 "negyvenötödik"; u8 "negyvenhatodik"; u8 "negyvenhetedik"; u8 "negyvennyolcadik";
    u8 "negyvenkilencedik"; u8 "ötvenedik";
    u8 "ötvenegyedik"; u8 "ötvenkettedik"; u8 "ötvenharmadik"; u8 "ötvennegyedik";
    u8 "ötvenötödik"; u8 "ötvenhatodik"; u8 "ötvenhetedik"; u8 "ötvennyolcadik";
    u8 "ötvenkilencedik"; u8 "hatvanadik";
    u8 "hatvanegyedik"; u8 "hatvankettedik"; u8 "hatvanharmadik"; u8 "hatvannegyedik";
    u8 "hatvanötödik"; u8 "hatvanhatodik"; u8 "hatvanhetedik"; u8 "hatvannyolcadik";
    u8 "hatvankilencedik"; u8 "hetvenedik";
    u8 "hetvenegyedik"; u8 "hetvenkettedik"; u8 "hetvenharmadik"; u8 "hetvennegyedik";
    u8 "hetvenötödik"; u8 "hetvenhatodik"; u8 "hetvenhetedik"; u8 "hetvennyolcadik";
    u8 "hetvenkilencedik"; u8 "nyolcvanadik";
    u8 "nyolcvanegyedik"; u8 "nyolcvankettedik"; u8 "nyolcvanharmadik"; u8 "nyolcvannegyedik";
    u8 "nyolcvanötödik"; u8 "nyolcvanhatodik"; u8 "nyolcvanhetedik"; u8 "nyolcvannyolcadik";
    u8 "nyolcvankilencedik"; u8 "kilencvenedik";
    u8 "kilencvenegyedik"; u8 "kilencvenkettedik"; u8 "kilencvenharmadik"; u8 "kilencvennegyedik";
    u8 "kilencvenötödik"; u8 "kilencvenhatodik"; u8 "kilencvenhetedik"; u8 "kilencvennyolcadik";
    u8 "kilencvenkilencedik"; u8 "századik" ].

(** The alphabet used for lettered points: the Latin letters with four optional digraphs. *)
Definition list_alphabet : list pystr :=
  [ u8 "a"; u8 "b"; u8 "c"; u8 "d"; u8 "e"; u8 "f"; u8 "g"; u8 "gy"; u8 "h"; u8 "i"; u8 "j";
    u8 "k"; u8 "l"; u8 "m"; u8 "n"; u8 "ny"; u8 "o"; u8 "p"; u8 "q"; u8 "r"; u8 "s"; u8 "sz";
    u8 "t"; u8 "ty"; u8 "u"; u8 "v"; u8 "w"; u8 "x"; u8 "y"; u8 "z" ].
Definition list_alphabet_upper : list pystr :=
  [ u8 "A"; u8 "B"; u8 "C"; u8 "D"; u8 "E"; u8 "F"; u8 "G"; u8 "GY"; u8 "H"; u8 "I"; u8 "J";
    u8 "K"; u8 "L"; u8 "M"; u8 "N"; u8 "NY"; u8 "O"; u8 "P"; u8 "Q"; u8 "R"; u8 "S"; u8 "SZ";
    u8 "T"; u8 "TY"; u8 "U"; u8 "V"; u8 "W"; u8 "X"; u8 "Y"; u8 "Z" ].

(* b follows a in [alphabet] when only digraphs (which may be left out) stand between them *)
Definition follows_in (alphabet : list pystr) (a b : pystr) : Prop :=
  exists before between after,
    alphabet = before ++ a :: between ++ b :: after /\
    Forall (fun d => List.length d = 2%nat) between.
