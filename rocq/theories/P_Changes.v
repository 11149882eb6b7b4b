(* Property C69: amendments of texts and of titles, and repeals, are recognised when they are written in the usual ways. *)
From Coq Require Import Lia.
From Coq Require Import ZifyBool ZifyNat ZifyN.
From Verif Require Import PyBase PyBaseFacts NumModel IdModel DateModel RefModel RefSpec TreeModel SemModel GramModel GramSpec PegModel PegSpec PegSpec2 PegSpec3 PegProofs2 PegProofs33 PegProofs35 PegProofs37 CiteSpec CiteProofs4 P_Told P_Cite P_Amends.
Local Open Scope Z_scope.

(** C69 *)
Theorem C69_found : forall text refs semantics abbrs, change_written text refs semantics abbrs ->
  grammar_analyzer text = Some (mk_analysis refs semantics abbrs).
Proof. exact change_found. Qed.
Print Assumptions C69_found.
(* It can be read in one way only. *)
Theorem C69_unique : forall text refs semantics abbrs refs' semantics' abbrs', change_written text refs semantics abbrs -> change_written text refs' semantics' abbrs' ->
  refs = refs' /\ semantics = semantics' /\ abbrs = abbrs'.
Proof. intros text l s m l' s' m' B B'. pose proof (change_found _ _ _ _ B) as H. rewrite (change_found _ _ _ _ B') in H. injection H as -> -> ->. auto. Qed.
Print Assumptions C69_unique.
(* None of these is a block amendment or an ordinary sentence. *)
Theorem C69_apart : forall text refs semantics abbrs, change_written text refs semantics abbrs ->
  semantics <> [] /\ forall refs' semantic abbrs', ~ block_written text refs' semantic abbrs'.
Proof.
  intros text l s m C. assert (N : s <> [] /\ forall x, In x s -> match x with BlockAmendment _ _ => False | _ => True end).
  { assert (L : forall last k w refs0, chain_written last k w refs0 -> exists o t, refs0 = o :: t) by (intros ? ? ? ? H; apply chain_some in H; destruct refs0; [contradiction|eauto]).
    assert (R : forall p v, replacements_written p v -> exists o t, p = o :: t) by (intros ? ? H; destruct H; eauto). assert (T : forall p v, texts_written p v -> exists o t, p = o :: t) by (intros ? ? H; destruct H; eauto).
    destruct C as [z u a x y m w refs q parts v e k _ _ _ _ C _ P _|z u a x y m i c d q b b' v t e k k' _ _ _ _ _ _ _ _ _ _ _ _ _|h z u a x y m w refs k _ _ _ _ _ _ C|h z u a x y m w refs q texts v k _ _ _ _ _ _ C _ P].
    - destruct (L _ _ _ _ C) as (o & t & ->), (R _ _ P) as (o' & t' & ->). split; [discriminate|]. intros z' I. apply in_flat_map in I as (o2 & _ & I). apply in_map_iff in I as (? & <- & _). exact Logic.I.
    - split; [discriminate|]. intros z' [<-|[]]. exact Logic.I.
    - destruct (L _ _ _ _ C) as (o & t & ->). split; [discriminate|]. intros z' I. apply in_map_iff in I as (? & <- & _). exact Logic.I.
    - destruct (L _ _ _ _ C) as (o & t & ->), (T _ _ P) as (o' & t' & ->). split; [discriminate|]. intros z' I. apply in_flat_map in I as (o2 & _ & I). apply in_map_iff in I as (? & <- & _). exact Logic.I. }
  destruct N as [N F]. split; [exact N|]. intros l' s' m' B. pose proof (C68_found _ _ _ _ B) as H. rewrite (change_found _ _ _ _ C) in H. injection H as -> -> ->. destruct B; exact (F _ (or_introl eq_refl)).
Qed.
Print Assumptions C69_apart.

(** Examples *)
Ltac smalls := repeat (apply Forall_cons; [first [left; unfold is_small; lia|right; cbn; tauto]|]); apply Forall_nil.
Lemma c69_short : act_written (u8 "Ptk.") (u8 "Ptk.") [] [].
Proof. apply aw_short. exists 80%N, (u8 "tk"). split; [reflexivity|]. split; [left; unfold is_capital; lia|]. split; [discriminate|]. smalls. Qed.
Lemma c69_title : title_words (u8 " ").
Proof. split; [checks|]. exists [], 32%N. repeat split. Qed.
Lemma c69_reference a p e : digits a -> digits p -> ending e ->
  reference_written (mk_ref None (RId a) (RId p) RNone RNone) ((a ++ u8 ". §") ++ u8 " (" ++ p ++ u8 ") bekezdés" ++ e).
Proof.
  intros A P E. pose proof (c67_article a [] (as_plain a A) (or_introl eq_refl)) as H1. pose proof (c68_paragraph p e P E) as H2.
  eexists. eexists. exists [], []. split; [exact H1|]. split; [exact H2|]. split; [apply c67_none|]. split; [apply c67_none|]. split; [|now left]. cbn [app]. rewrite <- !app_assoc. cbn [app]. now rewrite ?app_nil_r.
Qed.
Lemma c69_paragraph p e : digits p -> ending e -> reference_written (mk_ref None RNone (RId p) RNone RNone) (u8 "(" ++ p ++ u8 ") bekezdés" ++ e).
Proof.
  intros P E. exists [], (u8 " (" ++ p ++ u8 ") bekezdés" ++ e), [], []. split; [apply c67_none|]. split; [exact (c68_paragraph p e P E)|]. split; [apply c67_none|]. split; [apply c67_none|]. split; [now rewrite !app_nil_r|now left].
Qed.
Ltac fills i := exists i; split; [split; [lia|split; [discriminate|intros [|[|[|[|[|j]]]]] J; first [reflexivity|lia]]]|intros [|[|[|[|[|j]]]]] J; first [reflexivity|lia]].
Lemma c69_quotes x y a b z : ~ In 8222%N x -> ~ In 8221%N x -> ~ In 8222%N y -> ~ In 8221%N y -> In a [u8 " szövegrész"; u8 " szövegrészek"] -> In b [u8 " helyébe"; u8 " helyett"] -> quote_article z ->
  replacement_written x y (quoted x ++ a ++ b ++ z ++ quoted y).
Proof. intros. exists a, b, z. repeat split; auto. Qed.
Definition c69_ref (a p : rpart) : reference := mk_ref (Some (u8 "Ptk.")) a p RNone RNone.
Definition c69_text : pystr := u8 "A Ptk. 3. § (1) bekezdésében és (2) bekezdésében az „alma” szövegrész helyébe a „körte” szöveg, valamint a „szilva” szövegrészek helyett a „barack” szöveg lép.".
Definition c69_texts (r : reference) : list semantic_data := [TextAmendment r (u8 "alma") (u8 "körte"); TextAmendment r (u8 "szilva") (u8 "barack")].
Definition c69_heading : pystr := u8 "A Ptk. 3. §-ának címében az „alma” szövegrész helyébe a „körte” szöveg lép.".
Definition c69_repeal : pystr := u8 "Hatályát veszti a Ptk. 3. § (1) bekezdése és 4. §-a.".
Definition c69_part : pystr := u8 "Hatályát veszti a Ptk. 3. § (1) bekezdésében az „alma”, valamint a „körte” szövegrész.".
Example C69_found_ex :
  change_written c69_text
    [mk_outgoing 2 6 (c69_ref RNone RNone); mk_outgoing 7 28 (c69_ref (RId (u8 "3")) (RId (u8 "1"))); mk_outgoing 32 48 (c69_ref (RId (u8 "3")) (RId (u8 "2")))]
    (c69_texts (c69_ref (RId (u8 "3")) (RId (u8 "1"))) ++ c69_texts (c69_ref (RId (u8 "3")) (RId (u8 "2")))) [] /\
  change_written c69_heading
    [mk_outgoing 2 6 (c69_ref RNone RNone); mk_outgoing 7 16 (c69_ref (RId (u8 "3")) RNone)] [ArticleTitleAmendment (c69_ref (RId (u8 "3")) RNone) (u8 "alma") (u8 "körte")] [] /\
  change_written c69_repeal
    [mk_outgoing 18 22 (c69_ref RNone RNone); mk_outgoing 23 41 (c69_ref (RId (u8 "3")) (RId (u8 "1"))); mk_outgoing 45 51 (c69_ref (RId (u8 "4")) RNone)]
    [Repeal (ARef (c69_ref (RId (u8 "3")) (RId (u8 "1")))) None; Repeal (ARef (c69_ref (RId (u8 "4")) RNone)) None] [] /\
  change_written c69_part
    [mk_outgoing 18 22 (c69_ref RNone RNone); mk_outgoing 23 44 (c69_ref (RId (u8 "3")) (RId (u8 "1")))]
    [Repeal (ARef (c69_ref (RId (u8 "3")) (RId (u8 "1")))) (Some (u8 "alma")); Repeal (ARef (c69_ref (RId (u8 "3")) (RId (u8 "1")))) (Some (u8 "körte"))] [].
Proof.
  assert (Q : forall x, forallb (fun c => negb (c =? 8222) && negb (c =? 8221))%N x = true -> ~ In 8222%N x /\ ~ In 8221%N x).
  { intros x H. rewrite forallb_forall in H. split; intros I; apply H in I; discriminate I. }
  destruct (Q (u8 "alma") eq_refl) as [a1 a2], (Q (u8 "körte") eq_refl) as [b1 b2], (Q (u8 "szilva") eq_refl) as [c1 c2], (Q (u8 "barack") eq_refl) as [d1 d2].
  split; [|split; [|split]].
  - refine (cw_text (u8 "A") (u8 " ") (u8 "Ptk.") (u8 "Ptk.") [] [] (u8 "3. § (1) bekezdésében és (2) bekezdésében") _ (u8 " az ") [(u8 "alma", u8 "körte"); (u8 "szilva", u8 "barack")] (u8 "„alma” szövegrész helyébe a „körte” szöveg, valamint a „szilva” szövegrészek helyett a „barack” szöveg") (u8 " lép.") 2 _ c69_title c69_short eq_refl _ _ _ _); try (cbn; tauto).
    + refine (one_more (act_only (u8 "Ptk.")) 7 (mk_ref None (RId (u8 "3")) (RId (u8 "1")) RNone RNone) _ _ (u8 " és ") _ _ eq_refl (c69_reference (u8 "3") (u8 "1") (u8 "ében") _ _ _) _ _ _); [digit|digit|smalls|fills 1%nat|exists (u8 " és"), []; split; [cbn; tauto|split; [cbn; tauto|reflexivity]]|].
      refine (one_last _ 32 (mk_ref None RNone (RId (u8 "2")) RNone RNone) _ _ eq_refl (c69_paragraph (u8 "2") (u8 "ében") _ _) _); [digit|smalls|fills 2%nat].
    + refine (rw_more (u8 "alma") (u8 "körte") (u8 "„alma” szövegrész helyébe a „körte”") (u8 " szöveg") (u8 ", valamint a ") _ _ _ _ _ _).
      * apply (c69_quotes (u8 "alma") (u8 "körte") (u8 " szövegrész") (u8 " helyébe") (u8 " a ")); auto; cbn; tauto.
      * right. cbn. tauto.
      * exists (u8 ", valamint"), (u8 "a "). split; [cbn; tauto|split; [cbn; tauto|reflexivity]].
      * refine (rw_last (u8 "szilva") (u8 "barack") (u8 "„szilva” szövegrészek helyett a „barack”") (u8 " szöveg") _ _); [|cbn; tauto]. apply (c69_quotes (u8 "szilva") (u8 "barack") (u8 " szövegrészek") (u8 " helyett") (u8 " a ")); auto; cbn; tauto.
  - refine (cw_title (u8 "A") (u8 " ") (u8 "Ptk.") (u8 "Ptk.") [] [] (u8 "3") (u8 "-ának") (u8 "ében") (u8 " az ") (u8 "alma") (u8 "körte") (u8 "„alma” szövegrész helyébe a „körte”") (u8 " szöveg") (u8 " lép.") 2 7 _ c69_title c69_short eq_refl eq_refl _ _ _ _ _ _ _ _); try (cbn; tauto); try discriminate.
    + apply as_plain. digit.
    + right. exists (u8 "ának"). split; [reflexivity|]. split; [discriminate|]. smalls.
    + smalls.
    + apply (c69_quotes (u8 "alma") (u8 "körte") (u8 " szövegrész") (u8 " helyébe") (u8 " a ")); auto; cbn; tauto.
  - refine (cw_repeal (u8 "Hatályát veszti") (u8 " a ") [] (u8 "Ptk.") (u8 "Ptk.") [] [] (u8 "3. § (1) bekezdése és 4. §-a") [_; _] 18 _ _ _ _ c69_short eq_refl _); try (cbn; tauto); [checks|now left|].
    refine (one_more (act_only (u8 "Ptk.")) 23 (mk_ref None (RId (u8 "3")) (RId (u8 "1")) RNone RNone) _ _ (u8 " és ") (u8 "4. §-a") _ eq_refl (c69_reference (u8 "3") (u8 "1") (u8 "e") _ _ _) _ _ _); [digit|digit|smalls|fills 1%nat|exists (u8 " és"), []; split; [cbn; tauto|split; [cbn; tauto|reflexivity]]|].
    refine (one_last _ 45 (mk_ref None (RId (u8 "4")) RNone RNone RNone) _ _ eq_refl (PegProofs37.one_article_written (u8 "4") (u8 "-a") _ _) _); [apply as_plain; digit|right; exists (u8 "a"); split; [reflexivity|]; split; [discriminate|smalls]|fills 1%nat].
  - refine (cw_texts (u8 "Hatályát veszti") (u8 " a ") [] (u8 "Ptk.") (u8 "Ptk.") [] [] (u8 "3. § (1) bekezdésében") [_] (u8 " az ") [u8 "alma"; u8 "körte"] (u8 "„alma”, valamint a „körte” szövegrész") 18 _ _ _ _ c69_short eq_refl _ _ _); try (cbn; tauto); [checks|now left| |].
    + refine (one_last (act_only (u8 "Ptk.")) 23 (mk_ref None (RId (u8 "3")) (RId (u8 "1")) RNone RNone) _ _ eq_refl (c69_reference (u8 "3") (u8 "1") (u8 "ében") _ _ _) _); [digit|digit|smalls|fills 1%nat].
    + refine (tw_more (u8 "alma") [] (u8 ", valamint a ") _ _ _ _ _ _); [now split|cbn; tauto|exists (u8 ", valamint"), (u8 "a "); split; [cbn; tauto|split; [cbn; tauto|reflexivity]]|].
      apply (tw_last (u8 "körte") (u8 " szövegrész")); [now split|cbn; tauto].
Qed.
Example C69_unique_ex : forall refs semantics abbrs, change_written c69_text refs semantics abbrs -> length refs = 3%nat /\ length semantics = 4%nat /\ abbrs = [].
Proof. intros l s m B. destruct (C69_unique _ _ _ _ _ _ _ B (proj1 C69_found_ex)) as (-> & -> & ->). repeat split. Qed.
Example C69_apart_ex : forall refs semantic abbrs, ~ block_written c69_repeal refs semantic abbrs.
Proof. apply (proj2 (C69_apart _ _ _ _ (proj1 (proj2 (proj2 C69_found_ex))))). Qed.
(* a list of paragraphs *)
Definition c69_list : pystr := u8 "Hatályát veszti a Ptk. 3. § (1) és (4) bekezdése.".
Example C69_found_list_ex : change_written c69_list
  [mk_outgoing 18 22 (c69_ref RNone RNone); mk_outgoing 23 31 (c69_ref (RId (u8 "3")) (RId (u8 "1"))); mk_outgoing 35 48 (c69_ref (RId (u8 "3")) (RId (u8 "4")))]
  [Repeal (ARef (c69_ref (RId (u8 "3")) (RId (u8 "1")))) None; Repeal (ARef (c69_ref (RId (u8 "3")) (RId (u8 "4")))) None] [].
Proof.
  refine (cw_repeal (u8 "Hatályát veszti") (u8 " a ") [] (u8 "Ptk.") (u8 "Ptk.") [] [] (u8 "3. § (1) és (4) bekezdése") [_; _] 18 _ _ _ _ c69_short eq_refl _); try (cbn; tauto); [checks|now left|].
  refine (cw_last (act_only (u8 "Ptk.")) 23 (u8 "3. § (1) és (4) bekezdése") [mk_outgoing 23 31 (mk_ref None (RId (u8 "3")) (RId (u8 "1")) RNone RNone); mk_outgoing 35 48 (mk_ref None (RId (u8 "3")) (RId (u8 "4")) RNone RNone)] _ _ _ _).
  - exists (u8 " 3. §"), (u8 " (1) és (4) bekezdése"), [], []. exists [mk_add PArticle (RId (u8 "3")) 23 25], [mk_add PParagraph (RId (u8 "1")) 28 31; mk_add PParagraph (RId (u8 "4")) 35 38], [], [].
    split; [apply (c84_article 22 (u8 "3")); apply c84_numbers; lia|]. split; [refine (c68_two 49 52 27 (u8 "e") _ _ _ _ _); [lia|lia|small|]; apply c84_alone; [|ordered|reflexivity]; apply gr_one; [apart|]; apply grouped_single|].
    repeat (split; [apply c84_none|]). split; [reflexivity|]. split; [now left|]. apply ci_last, ci_more, ci_last, ci_none, ci_none, ci_end.
  - apply af_next; [fills 1%nat|]. apply af_next; [fills 1%nat|]. apply af_end.
Qed.
