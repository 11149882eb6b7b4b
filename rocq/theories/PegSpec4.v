(* Independent specification of how the day is written on which an act or a part of it enters into force. *)
From Verif Require Import PyBase NumModel IdModel DateModel DateSpec RefModel RefSpec TreeModel SemModel GramModel GramSpec PegSpec PegSpec2 PegSpec3 CiteSpec.
Local Open Scope Z_scope.

(* 2013. január 1-jén, 2013. január 1. napján *)
Definition date_named (w : pystr) (d : date) : Prop :=
  exists y n e, numeral y (d_year d) /\ numeral n (d_day d) /\ 1 <= d_month d <= 12 /\ In e [u8 "-án"; u8 "-jén"; u8 "-én"; u8 ". napján"] /\
    w = y ++ u8 ". " ++ nth (Z.to_nat (d_month d - 1)) month_names [] ++ u8 " " ++ n ++ e.
(* a number with a space before it: " 8.", " nyolcadik" *)
Inductive count_named : pystr -> Z -> Prop :=
| cn_number s n : numeral s n -> count_named (u8 " " ++ s ++ u8 ".") n
| cn_word s n : In (s, n) grammar_ordinals -> count_named (u8 " " ++ s) n.
(* a kihirdetését követő *)
Definition proclaimed (w : pystr) : Prop :=
  exists a b, In a [u8 ""; u8 "a "; u8 "e törvény "] /\ In b [u8 "kihirdetését"; u8 "kihirdetést"] /\ w = a ++ b ++ u8 " követő".
Inductive moment_written : enforcement_date_type -> pystr -> Prop :=
| mw_date d w : date_named w d -> moment_written (EDate d) w
| mw_next p : proclaimed p -> moment_written (EDaysAfterPublication 1) (p ++ u8 " napon")
| mw_days p n w : proclaimed p -> count_named w n -> moment_written (EDaysAfterPublication n) (p ++ w ++ u8 " napon")
| mw_next_month p n w : proclaimed p -> count_named w n -> moment_written (EDayInMonthAfterPublication n 1) (p ++ u8 " hónap" ++ w ++ u8 " napján")
| mw_months p m v n w : proclaimed p -> In (v, m) grammar_ordinals -> count_named w n ->
    moment_written (EDayInMonthAfterPublication n m) (p ++ u8 " " ++ v ++ u8 " hónap" ++ w ++ u8 " napján").
(* , és 2014. január 1-jén hatályát veszti *)
Inductive ends_written : option date -> pystr -> Prop :=
| ew_none : ends_written None []
| ew_date a d w b : In a [u8 ""; u8 " e törvény"; u8 " ez a törvény"] -> date_named w d -> In b [u8 ""; u8 " a"] ->
    ends_written (Some d) (u8 ", és" ++ a ++ u8 " " ++ w ++ b ++ u8 " hatályát veszti").
Definition nowhere : reference := mk_ref None RNone RNone RNone RNone.
(*  – a (2) bekezdésben foglalt kivétellel – ; the first character is the k-th *)
Inductive exception_written : Z -> pystr -> list outgoing_reference -> Prop :=
| xw_none k : exception_written k [] []
| xw_one k d w raw out final b c d' : is_dash d -> is_dash d' -> reference_listed None (k + 5) w raw -> all_filled nowhere raw out final ->
    In b [u8 " foglalt"; u8 " foglaltak"; u8 " meghatározott"] -> In c [u8 " kivétellel"; u8 " kivételével"; u8 " kivételekkel"] ->
    exception_written k (u8 " " ++ [d] ++ u8 " a " ++ w ++ b ++ c ++ u8 " " ++ [d']) out.
(* references, if any, each with a space before it *)
Inductive subjects_written : Z -> pystr -> list outgoing_reference -> Prop :=
| sw_none k : subjects_written k [] []
| sw_some k w l : chain_written nowhere (k + 1) w l -> subjects_written k (u8 " " ++ w) l.
(* Ez a törvény 2013. január 1-jén lép hatályba. *)
Inductive enforcement_written : pystr -> list outgoing_reference -> list semantic_data -> Prop :=
| enf h x xs s refs date w until v :
    In h [u8 "E törvény"; u8 "Ez a törvény"; u8 "A"; u8 "Az"] -> exception_written (size h) x xs -> subjects_written (size h + size x) s refs ->
    moment_written date w -> ends_written until v ->
    enforcement_written (h ++ x ++ s ++ u8 " " ++ w ++ u8 " lép hatályba" ++ v ++ u8 ".") (refs ++ xs)
      match refs with [] => [EnforcementDate None date until] | _ => map (fun o => EnforcementDate (Some (or_reference o)) date until) refs end.
(* the dates are in the calendar *)
Definition possible (s : semantic_data) : Prop :=
  match s with
  | EnforcementDate _ date until =>
      match date with EDate d => supported d | _ => True end /\ match until with Some d => supported d | None => True end
  | _ => False
  end.
