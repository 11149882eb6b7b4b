(* Property C70: the day on which an act or a part of it enters into force is recognised when it is written in the usual ways. *)
From Coq Require Import Lia.
From Coq Require Import ZifyBool ZifyNat ZifyN.
From Verif Require Import PyBase PyBaseFacts NumModel IdModel DateModel DateSpec DateProofs RefModel RefSpec TreeModel SemModel GramModel GramSpec PegModel PegSpec PegSpec2 PegSpec3 PegSpec4 PegProofs2 PegProofs33 PegProofs35 PegProofs37 PegProofs40 CiteSpec CiteProofs4 P_Told P_Cite P_Amends P_Changes.
Local Open Scope Z_scope.

(** C70 *)
Theorem C70_found : forall text refs semantics, enforcement_written text refs semantics -> Forall possible semantics ->
  grammar_analyzer text = Some (mk_analysis refs semantics []).
Proof. intros text l s W. exact (proj1 (enforcement_sentence _ _ _ W)). Qed.
Print Assumptions C70_found.
(* A sentence with a day that is not in the calendar is refused as a whole. *)
Theorem C70_impossible : forall text refs semantics, enforcement_written text refs semantics -> ~ Forall possible semantics ->
  grammar_analyzer text = None.
Proof. intros text l s W. exact (proj2 (enforcement_sentence _ _ _ W)). Qed.
Print Assumptions C70_impossible.
(* It can be read in one way only. *)
Theorem C70_unique : forall text refs semantics refs' semantics', enforcement_written text refs semantics -> Forall possible semantics -> enforcement_written text refs' semantics' ->
  refs = refs' /\ semantics = semantics'.
Proof.
  intros text l s l' s' W P W'. pose proof (C70_found _ _ _ W P) as H. destruct (enforcement_sentence _ _ _ W') as [A B].
  assert (P' : ~ ~ Forall possible s') by (intros N; rewrite (B N) in H; discriminate H).
  assert (D : Forall possible s' \/ ~ Forall possible s').
  { clear -s'. induction s' as [|x t [IH|IH]]; [left; constructor| |right; intros H; inversion H; contradiction].
    assert (D : possible x \/ ~ possible x).
    { destruct x as [|o d u| | |]; try (right; exact (fun H => H)). cbn. assert (D1 : (match d with EDate d => supported d | _ => True end) \/ ~ (match d with EDate d => supported d | _ => True end)) by (destruct d as [d| | |]; try (now left); apply supported_dec).
      assert (D2 : (match u with Some d => supported d | None => True end) \/ ~ (match u with Some d => supported d | None => True end)) by (destruct u as [d'|]; [apply supported_dec|now left]). tauto. }
    destruct D; [left; now constructor|right; intros H'; inversion H'; contradiction]. }
  destruct D as [D|D]; [|now destruct P']. rewrite (A D) in H. injection H as -> ->. now split.
Qed.
Print Assumptions C70_unique.
(* None of these is an amendment or a repeal. *)
Theorem C70_apart : forall text refs semantics, enforcement_written text refs semantics ->
  (forall refs' semantic abbrs', ~ block_written text refs' semantic abbrs') /\ (forall refs' semantics' abbrs', ~ change_written text refs' semantics' abbrs').
Proof.
  intros text l s W. destruct (enforcement_sentence _ _ _ W) as [A B].
  assert (E : s <> [] /\ forall x, In x s -> match x with EnforcementDate _ _ _ => True | _ => False end).
  { destruct W as [h x xs t refs date w until v _ _ _ _ _]. destruct refs as [|o refs]; [split; [discriminate|]; intros y [<-|[]]; exact Logic.I|]. split; [discriminate|]. intros y Y. apply in_map_iff in Y as (? & <- & _). exact Logic.I. }
  destruct E as [N E].
  assert (K : forall a, grammar_analyzer text = Some a -> forall x, In x (an_semantic a) -> match x with EnforcementDate _ _ _ => True | _ => False end).
  { intros a Ha. assert (D : ~ ~ Forall possible s) by (intros Q; rewrite (B Q) in Ha; discriminate Ha). intros x X. destruct x as [|o d u| | |]; try exact Logic.I; exfalso; (apply D; intros P; rewrite (A P) in Ha; injection Ha as <-; exact (E _ X)). }
  split; intros l' s' m' C.
  - specialize (K _ (C68_found _ _ _ _ C) s' (or_introl eq_refl)). destruct C; exact K.
  - specialize (K _ (C69_found _ _ _ _ C)). destruct C as [z u a x y m w refs q parts v e k _ _ _ _ C _ P _|z u a x y m i c d q b b' v t e k k' _ _ _ _ _ _ _ _ _ _ _ _ _|h z u a x y m w refs k _ _ _ _ _ _ C|h z u a x y m w refs q texts v k _ _ _ _ _ _ C _ P]; cbn [an_semantic] in K.
    + apply chain_some in C. destruct refs; [contradiction|]. destruct P; exact (K _ (or_introl eq_refl)).
    + exact (K _ (or_introl eq_refl)).
    + apply chain_some in C. destruct refs; [contradiction|]. exact (K _ (or_introl eq_refl)).
    + apply chain_some in C. destruct refs; [contradiction|]. destruct P; exact (K _ (or_introl eq_refl)).
Qed.
Print Assumptions C70_apart.

(** Examples *)
Definition c70_ref (a p : rpart) : reference := mk_ref None a p RNone RNone.
Definition c70_act : pystr := u8 "Ez a törvény – a (2) bekezdésben foglalt kivétellel – 2013. szeptember 7. napján lép hatályba.".
Definition c70_parts : pystr := u8 "A 3. § (1) bekezdése és 4. §-a a kihirdetését követő második hónap 1. napján lép hatályba, és 2014. január 1-jén hatályát veszti.".
Definition c70_next : pystr := u8 "E törvény a kihirdetését követő nyolcadik napon lép hatályba.".
Definition c70_never : pystr := u8 "E törvény 2013. február 29-én lép hatályba.".
Lemma c70_date y m d w : numeral y (d_year d) -> numeral m (d_day d) -> 1 <= d_month d <= 12 -> forall e, In e [u8 "-án"; u8 "-jén"; u8 "-én"; u8 ". napján"] ->
  w = y ++ u8 ". " ++ nth (Z.to_nat (d_month d - 1)) month_names [] ++ u8 " " ++ m ++ e -> date_named w d.
Proof. intros. exists y, m, e. repeat split; auto; try apply H; try apply H0; lia. Qed.
Lemma c70_numeral s n : s <> [] -> forallb (fun c => (48 <=? c)%N && (c <=? 57)%N) s = true -> Z.of_N (digits_val s) = n -> numeral s n.
Proof. intros N F E. split; [exact N|]. split; [|exact E]. apply Forall_forall. rewrite forallb_forall in F. intros c Hc. specialize (F c Hc). lia. Qed.
Ltac num := apply c70_numeral; [discriminate|reflexivity|reflexivity].
Lemma c70_when y m d ys ds e : numeral ys y -> numeral ds d -> 1 <= m <= 12 -> In e [u8 "-án"; u8 "-jén"; u8 "-én"; u8 ". napján"] ->
  moment_written (EDate (mk_date y m d)) (ys ++ u8 ". " ++ nth (Z.to_nat (m - 1)) month_names [] ++ u8 " " ++ ds ++ e).
Proof. intros Y D M E. apply mw_date. exists ys, ds, e. repeat split; auto; try apply Y; try apply D; cbn; lia. Qed.
Lemma c70_never_written : enforcement_written c70_never [] [EnforcementDate None (EDate (mk_date 2013 2 29)) None].
Proof.
  refine (enf (u8 "E törvény") [] [] [] [] _ _ None [] _ (xw_none _) (sw_none _) (c70_when 2013 2 29 (u8 "2013") (u8 "29") (u8 "-én") _ _ _ _) ew_none); try (cbn; tauto); try num. lia.
Qed.
Example C70_found_ex :
  enforcement_written c70_act [mk_outgoing 17 32 (c70_ref RNone (RId (u8 "2")))] [EnforcementDate None (EDate (mk_date 2013 9 7)) None] /\ supported (mk_date 2013 9 7) /\
  enforcement_written c70_parts [mk_outgoing 2 20 (c70_ref (RId (u8 "3")) (RId (u8 "1"))); mk_outgoing 24 30 (c70_ref (RId (u8 "4")) RNone)]
    [EnforcementDate (Some (c70_ref (RId (u8 "3")) (RId (u8 "1")))) (EDayInMonthAfterPublication 1 2) (Some (mk_date 2014 1 1));
     EnforcementDate (Some (c70_ref (RId (u8 "4")) RNone)) (EDayInMonthAfterPublication 1 2) (Some (mk_date 2014 1 1))] /\ supported (mk_date 2014 1 1) /\
  enforcement_written c70_next [] [EnforcementDate None (EDaysAfterPublication 8) None].
Proof.
  split; [|split; [|split; [|split]]].
  - refine (enf (u8 "Ez a törvény") (u8 " – a (2) bekezdésben foglalt kivétellel –") _ [] [] _ _ None [] _ (xw_one 12 8211%N (u8 "(2) bekezdésben") [mk_outgoing 17 32 (c70_ref RNone (RId (u8 "2")))] _ _ (u8 " foglalt") (u8 " kivétellel") 8211%N _ _ _ (one_filled _ _ (c70_ref RNone (RId (u8 "2"))) _ _ _) _ _) (sw_none _) (c70_when 2013 9 7 (u8 "2013") (u8 "7") (u8 ". napján") _ _ _ _) ew_none); try (cbn; tauto); try num; try lia.
    + apply (reference_single (c70_ref RNone (RId (u8 "2"))) 17), (c69_paragraph (u8 "2") (u8 "ben")); [digit|smalls].
    + fills 2%nat.
  - apply Date_ok. vm_compute. reflexivity.
  - refine (enf (u8 "A") [] [] (u8 " 3. § (1) bekezdése és 4. §-a") [_; _] _ (u8 "a kihirdetését követő második hónap 1. napján") (Some (mk_date 2014 1 1)) (u8 ", és 2014. január 1-jén hatályát veszti") _ (xw_none _) (sw_some 1 _ _ _) _ _); try (cbn; tauto).
    + refine (one_more nowhere 2 (c70_ref (RId (u8 "3")) (RId (u8 "1"))) _ _ (u8 " és ") (u8 "4. §-a") _ eq_refl (c69_reference (u8 "3") (u8 "1") (u8 "e") _ _ _) _ _ _); [digit|digit|smalls|fills 1%nat|exists (u8 " és"), []; split; [cbn; tauto|split; [cbn; tauto|reflexivity]]|].
      refine (one_last _ 24 (c70_ref (RId (u8 "4")) RNone) _ _ eq_refl (PegProofs37.one_article_written (u8 "4") (u8 "-a") _ _) _); [apply as_plain; digit|right; exists (u8 "a"); split; [reflexivity|]; split; [discriminate|smalls]|fills 1%nat].
    + refine (mw_months (u8 "a kihirdetését követő") 2 (u8 "második") 1 (u8 " 1.") _ _ (cn_number (u8 "1") 1 _)); [exists (u8 "a "), (u8 "kihirdetését"); repeat split; cbn; tauto|cbn; tauto|num].
    + refine (ew_date [] (mk_date 2014 1 1) (u8 "2014. január 1-jén") [] _ _ _); try (cbn; tauto). exists (u8 "2014"), (u8 "1"), (u8 "-jén"). split; [num|]. split; [num|]. split; [cbn; lia|]. split; [cbn; tauto|reflexivity].
  - apply Date_ok. vm_compute. reflexivity.
  - refine (enf (u8 "E törvény") [] [] [] [] _ (u8 "a kihirdetését követő nyolcadik napon") None [] _ (xw_none _) (sw_none _) (mw_days (u8 "a kihirdetését követő") 8 (u8 " nyolcadik") _ (cn_word (u8 "nyolcadik") 8 _)) ew_none); try (cbn; tauto).
    exists (u8 "a "), (u8 "kihirdetését"). repeat split; cbn; tauto.
Qed.
Example C70_impossible_ex : enforcement_written c70_never [] [EnforcementDate None (EDate (mk_date 2013 2 29)) None] /\ ~ Forall possible [EnforcementDate None (EDate (mk_date 2013 2 29)) None].
Proof.
  split; [exact c70_never_written|]. intros H. inversion H as [|? ? H1 _]. destruct H1 as [H1 _]. cbn in H1. apply Date_ok in H1. vm_compute in H1. discriminate H1.
Qed.
Example C70_unique_ex : forall refs semantics, enforcement_written c70_next refs semantics -> refs = [] /\ length semantics = 1%nat.
Proof.
  intros l s W. destruct (C70_unique _ _ _ _ _ (proj2 (proj2 (proj2 (proj2 C70_found_ex)))) ltac:(constructor; [split; exact Logic.I|constructor]) W) as [<- <-]. now split.
Qed.
Example C70_apart_ex : forall refs semantics abbrs, ~ change_written c70_parts refs semantics abbrs.
Proof. exact (proj2 (C70_apart _ _ _ (proj1 (proj2 (proj2 C70_found_ex))))). Qed.
