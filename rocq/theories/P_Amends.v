(* Property C68: an amendment that is written in one of the usual ways is recognised, with what it amends. *)
From Coq Require Import Lia.
From Coq Require Import ZifyBool ZifyNat ZifyN.
From Verif Require Import PyBase PyBaseFacts NumModel IdModel DateModel RefModel RefSpec RefProofs TreeModel SemModel GramModel GramSpec PegModel PegSpec PegSpec2 PegSpec3 PegProofs2 PegProofs33 PegProofs34 JointProofs2 CiteSpec CiteProofs4 P_Told P_Cite.
Local Open Scope Z_scope.

(** C68 *)
Theorem C68_found : forall text refs semantic abbrs, block_written text refs semantic abbrs ->
  grammar_analyzer text = Some (mk_analysis refs [semantic] abbrs).
Proof. exact block_found. Qed.
Print Assumptions C68_found.
(* It can be read in one way only. *)
Theorem C68_unique : forall text refs semantic abbrs refs' semantic' abbrs', block_written text refs semantic abbrs -> block_written text refs' semantic' abbrs' ->
  refs = refs' /\ semantic = semantic' /\ abbrs = abbrs'.
Proof. intros text l s m l' s' m' B B'. pose proof (block_found _ _ _ _ B) as H. rewrite (block_found _ _ _ _ B') in H. injection H as -> -> ->. auto. Qed.
Print Assumptions C68_unique.
(* A list that is not one range is not taken for an amendment: nothing is left of the sentence but the act. *)
Theorem C68_lost : forall text refs abbrs, lost_written text refs abbrs -> grammar_analyzer text = Some (mk_analysis refs [] abbrs).
Proof. exact lost_found. Qed.
Print Assumptions C68_lost.
(* If no reference is for both what is replaced and what is inserted, the sentence is not read at all. *)
Theorem C68_impossible : forall text, clash_written text -> grammar_analyzer text = None.
Proof. exact clash_found. Qed.
Print Assumptions C68_impossible.

Definition c68_act : pystr := u8 "2013. évi V. törvény".
Lemma c68_named : act_written c68_act (u8 "2013. évi V. törvény") (u8 " (a továbbiakban: Ptk.)") [mk_abbreviation (u8 "Ptk.") c68_act].
Proof.
  refine (aw_from_now_on (u8 "2013") (u8 "V") [] (u8 "Ptk.") _ _ _ _); [digit|split; [discriminate|repeat constructor; cbn; tauto]|constructor|].
  exists 80%N, (u8 "tk"). split; [reflexivity|]. split; [left; unfold is_capital; lia|]. split; [discriminate|]. small.
Qed.
Lemma c68_title : title_words (u8 " Polgári Törvénykönyvről szóló ").
Proof. split; [checks|]. exists (u8 " Polgári Törvénykönyvről szóló"), 32%N. repeat split. Qed.
Lemma c68_paragraph n e : digits n -> ending e -> level_written 2 (RId n) (u8 " " ++ u8 "(" ++ n ++ u8 ")" ++ u8 " bekezdés" ++ e).
Proof.
  intros D E. right. exists PParagraph, (u8 "(" ++ n ++ u8 ")" ++ u8 " bekezdés" ++ e). split; [reflexivity|]. split; [|reflexivity]. exists (u8 "(" ++ n ++ u8 ")"), e.
  split; [apply (iw_one PParagraph n); exists n, []; split; [now rewrite app_nil_r|]; split; [exact D|constructor]|]. split; [exact E|]. rewrite <- !app_assoc. reflexivity.
Qed.
Lemma c68_two a b k e out : (48 <= a <= 57)%N -> (48 <= b <= 57)%N -> ending e ->
  joined [mk_add PParagraph (RId [a]) (k + 1) (k + 4); mk_add PParagraph (RId [b]) (k + 8) (k + 11)] out ->
  level_listed 2 k (u8 " " ++ (u8 "(" ++ [a] ++ u8 ") és (" ++ [b] ++ u8 ")") ++ u8 " " ++ u8 "bekezdés" ++ e) out.
Proof.
  intros A B E J. right. exists PParagraph, (u8 "(" ++ [a] ++ u8 ") és (" ++ [b] ++ u8 ")"), e, [mk_add PParagraph (RId [a]) (k + 1) (k + 4); mk_add PParagraph (RId [b]) (k + 8) (k + 11)].
  split; [reflexivity|]. split; [|split; [exact E|split; [discriminate|split; [exact J|reflexivity]]]].
  pose proof (it_more PParagraph (k + 1) (RId [a]) (u8 "(" ++ [a] ++ u8 ")") (u8 " és ") (u8 "(" ++ [b] ++ u8 ")") [mk_add PParagraph (RId [b]) (k + 8) (k + 11)] (iw_one PParagraph [a] (c84_paragraph a A)) (c84_separator (u8 " és") [] ltac:(cbn; tauto) ltac:(cbn; tauto))) as H.
  change (size (u8 "(" ++ [a] ++ u8 ")")) with 3 in H. change (size (u8 " és ")) with 4 in H. replace (k + 1 + 3) with (k + 4) in H by lia. apply H.
  pose proof (it_last PParagraph (k + 8) (RId [b]) (u8 "(" ++ [b] ++ u8 ")") (iw_one PParagraph [b] (c84_paragraph b B))) as L. change (size (u8 "(" ++ [b] ++ u8 ")")) with 3 in L. replace (k + 4 + 4) with (k + 8) by lia. replace (k + 8 + 3) with (k + 11) in L by lia. exact L.
Qed.
Definition c68_amendment : pystr := u8 "A Polgári Törvénykönyvről szóló 2013. évi V. törvény (a továbbiakban: Ptk.) 3. § (1) bekezdése helyébe a következő rendelkezés lép:".
Definition c68_insertion : pystr := u8 "A Polgári Törvénykönyvről szóló 2013. évi V. törvény (a továbbiakban: Ptk.) 3. §-a a következő (3) és (4) bekezdéssel egészül ki:".
Definition c68_list : pystr := u8 "A Polgári Törvénykönyvről szóló 2013. évi V. törvény (a továbbiakban: Ptk.) 3. § (1) és (3) bekezdése helyébe a következő rendelkezések lépnek:".
Example C68_found_ex :
  block_written c68_amendment
    [mk_outgoing 32 52 (mk_ref (Some c68_act) RNone RNone RNone RNone); mk_outgoing 76 94 (mk_ref (Some c68_act) (RId (u8 "3")) (RId (u8 "1")) RNone RNone)]
    (BlockAmendment (ARef (mk_ref (Some c68_act) (RId (u8 "3")) (RId (u8 "1")) RNone RNone)) false) [mk_abbreviation (u8 "Ptk.") c68_act] /\
  block_written c68_insertion
    [mk_outgoing 32 52 (mk_ref (Some c68_act) RNone RNone RNone RNone); mk_outgoing 76 117 (mk_ref (Some c68_act) (RId (u8 "3")) (RRange (u8 "3") (u8 "4")) RNone RNone)]
    (BlockAmendment (ARef (mk_ref (Some c68_act) (RId (u8 "3")) (RRange (u8 "3") (u8 "4")) RNone RNone)) true) [mk_abbreviation (u8 "Ptk.") c68_act].
Proof.
  split.
  - apply (bw_one c68_amendment (mk_outgoing 32 52 (act_only c68_act)) (mk_outgoing 76 94 (mk_ref (Some c68_act) (RId (u8 "3")) (RId (u8 "1")) RNone RNone))).
    refine (bw_amended (u8 "A") (u8 " Polgári Törvénykönyvről szóló ") c68_act (u8 "2013. évi V. törvény") (u8 " (a továbbiakban: Ptk.)") _ (u8 "3. § (1) bekezdése") _ (u8 " helyébe a következő rendelkezés lép") 32 _ c68_title c68_named eq_refl _ _ _); [cbn; tauto| |now apply unplaced_check|cbn; tauto].
    apply (reference_single (mk_ref (Some c68_act) (RId (u8 "3")) (RId (u8 "1")) RNone RNone) 76).
    exists (u8 " 3. §"), (u8 " (1) bekezdése"), [], []. split; [apply (c67_article (u8 "3") []); [constructor; digit|now left]|].
    split; [apply (c68_paragraph (u8 "1") (u8 "e")); [digit|small]|split; [apply c67_none|split; [apply c67_none|split; [reflexivity|now left]]]].
  - apply (bw_one c68_insertion (mk_outgoing 32 52 (act_only c68_act)) (mk_outgoing 76 117 (mk_ref (Some c68_act) (RId (u8 "3")) (RRange (u8 "3") (u8 "4")) RNone RNone))).
    refine (bw_inserted (u8 "A") (u8 " Polgári Törvénykönyvről szóló ") c68_act (u8 "2013. évi V. törvény") (u8 " (a továbbiakban: Ptk.)") _ (u8 " 3. §-a a következő (3) és (4) bekezdéssel") _ (u8 " egészül ki") 32 _ c68_title c68_named eq_refl _ _ _); [cbn; tauto| |now apply unplaced_check|cbn; tauto].
    refine (ins_paragraph (Some c68_act) 75 (u8 " 3. §-a") (u8 " (3) és (4) bekezdéssel") [mk_add PArticle (RId (u8 "3")) 76 78] [mk_add PParagraph (RRange (u8 "3") (u8 "4")) 95 105] _ _ eq_refl _ (c68_two 51 52 94 (u8 "sel") _ _ _ _ _) _ _); [|lia|lia|small| |discriminate|exact (ci_last 1 _ _ _ _ _ _ (ci_last 2 _ _ _ _ _ _ (ci_none 3 _ _ _ _ _ (ci_none 4 _ _ _ _ _ (ci_end 5 _ _ _)))))].
    + right. exists PArticle, (u8 "3."), (u8 "-a"), [mk_add PArticle (RId (u8 "3")) 76 78]. split; [reflexivity|]. split; [apply (it_last PArticle 76 (RId (u8 "3")) (u8 "3.")); apply (iw_one PArticle (u8 "3")); apply c84_numbers; lia|].
      split; [right; exists (u8 "a"); split; [reflexivity|]; split; [discriminate|small]|]. split; [discriminate|]. split; [apply c84_alone; [apply grouped_single|ordered|reflexivity]|reflexivity].
    + eexists. split; [|split; [reflexivity|ordered]]. refine (gr_two (mk_add PParagraph (RId (u8 "3")) 95 98) (mk_add PParagraph (RId (u8 "4")) 102 105) (u8 "3") (u8 "4") _ _ _ eq_refl eq_refl gr_nil). split; [reflexivity|]. eexists _, (u8 "3"), (u8 "4"). repeat split.
Qed.
Example C68_lost_ex : lost_written c68_list [mk_outgoing 32 52 (mk_ref (Some c68_act) RNone RNone RNone RNone)] [mk_abbreviation (u8 "Ptk.") c68_act].
Proof.
  refine (lo_many c68_list (mk_outgoing 32 52 (act_only c68_act)) [mk_outgoing 76 84 (mk_ref (Some c68_act) (RId (u8 "3")) (RId (u8 "1")) RNone RNone); mk_outgoing 88 101 (mk_ref (Some c68_act) (RId (u8 "3")) (RId (u8 "3")) RNone RNone)] false _ _ _); [|discriminate].
  refine (bw_amended (u8 "A") (u8 " Polgári Törvénykönyvről szóló ") c68_act (u8 "2013. évi V. törvény") (u8 " (a továbbiakban: Ptk.)") _ (u8 "3. § (1) és (3) bekezdése") _ (u8 " helyébe a következő rendelkezések lépnek") 32 _ c68_title c68_named eq_refl _ _ _); [cbn; tauto| |now apply unplaced_check|cbn; tauto].
  exists (u8 " 3. §"), (u8 " (1) és (3) bekezdése"), [], []. exists [mk_add PArticle (RId (u8 "3")) 76 78], [mk_add PParagraph (RId (u8 "1")) 81 84; mk_add PParagraph (RId (u8 "3")) 88 91], [], [].
  split; [apply (c84_article 75 (u8 "3")); apply c84_numbers; lia|]. split; [refine (c68_two 49 51 80 (u8 "e") _ _ _ _ _); [lia|lia|small|]; apply c84_alone; [|ordered|reflexivity]; apply gr_one; [apart|]; apply grouped_single|].
  repeat (split; [apply c84_none|]). split; [reflexivity|]. split; [now left|]. apply ci_last, ci_more, ci_last, ci_none, ci_none, ci_end.
Qed.
Example C68_unique_ex : forall refs semantic abbrs, block_written c68_insertion refs semantic abbrs -> length refs = 2%nat /\ length abbrs = 1%nat.
Proof. intros l s m B. destruct (C68_unique _ _ _ _ _ _ _ B (proj2 C68_found_ex)) as (-> & _ & ->). split; reflexivity. Qed.

(** Sentences that replace and insert at once *)
Definition c68_first : reference := mk_ref (Some c68_act) (RId (u8 "3")) (RId (u8 "1")) RNone RNone.
Definition c68_start : pystr := u8 "A Polgári Törvénykönyvről szóló 2013. évi V. törvény (a továbbiakban: Ptk.) ".
Lemma c68_pair w am i ins : reference_listed (Some c68_act) 76 w am -> unplaced w -> joint_insertion (Some c68_act) (76 + size w + 40) i ins -> unplaced i ->
  both_written (c68_start ++ w ++ u8 " helyébe a következő rendelkezés lép, és" ++ i ++ u8 " egészül ki:") (mk_outgoing 32 52 (act_only c68_act)) am ins [mk_abbreviation (u8 "Ptk.") c68_act].
Proof.
  intros R P I Q. refine (bb_both (u8 "A") (u8 " Polgári Törvénykönyvről szóló ") c68_act (u8 "2013. évi V. törvény") (u8 " (a továbbiakban: Ptk.)") _ w am (u8 " helyébe a következő rendelkezés lép") (u8 ", és") i ins (u8 " egészül ki") 32 76 _ c68_title c68_named eq_refl eq_refl R P _ _ _ Q _); [cbn; tauto|cbn; tauto|cbn; tauto| |cbn; tauto].
  change (size (u8 " helyébe a következő rendelkezés lép")) with 36. change (size (u8 ", és")) with 4. replace (76 + size w + 36 + 4) with (76 + size w + 40) by lia. exact I.
Qed.
Lemma c68_amended : reference_listed (Some c68_act) 76 (u8 "3. § (1) bekezdése") [mk_outgoing 76 94 c68_first].
Proof.
  apply (reference_single c68_first 76). exists (u8 " 3. §"), (u8 " (1) bekezdése"), [], []. split; [apply (c67_article (u8 "3") []); [constructor; digit|now left]|].
  split; [apply (c68_paragraph (u8 "1") (u8 "e")); [digit|small]|split; [apply c67_none|split; [apply c67_none|split; [reflexivity|now left]]]].
Qed.
Lemma c68_listed : reference_listed (Some c68_act) 76 (u8 "3. § (1) és (3) bekezdése")
  [mk_outgoing 76 84 c68_first; mk_outgoing 88 101 (mk_ref (Some c68_act) (RId (u8 "3")) (RId (u8 "3")) RNone RNone)].
Proof.
  exists (u8 " 3. §"), (u8 " (1) és (3) bekezdése"), [], []. exists [mk_add PArticle (RId (u8 "3")) 76 78], [mk_add PParagraph (RId (u8 "1")) 81 84; mk_add PParagraph (RId (u8 "3")) 88 91], [], [].
  split; [apply (c84_article 75 (u8 "3")); apply c84_numbers; lia|]. split; [refine (c68_two 49 51 80 (u8 "e") _ _ _ _ _); [lia|lia|small|]; apply c84_alone; [|ordered|reflexivity]; apply gr_one; [apart|]; apply grouped_single|].
  repeat (split; [apply c84_none|]). split; [reflexivity|]. split; [now left|]. apply ci_last, ci_more, ci_last, ci_none, ci_none, ci_end.
Qed.
Lemma c68_one t i e k : part_id t i -> unit_ending t e -> level_listed (level_of t) k (u8 " " ++ one_text t i ++ u8 " " ++ unit_text t ++ e) [mk_add t (RId i) (k + 1) (k + 1 + size (one_text t i))].
Proof.
  intros I E. right. exists t, (one_text t i), e, [mk_add t (RId i) (k + 1) (k + 1 + size (one_text t i))]. split; [reflexivity|]. split; [apply it_last; exact (iw_one t i I)|]. split; [exact E|]. split; [reflexivity|]. split; [|reflexivity].
  apply c84_alone; [apply grouped_single|ordered|reflexivity].
Qed.
Lemma c68_new k : joint_insertion (Some c68_act) k (u8 " a § a következő (1a) bekezdéssel") [mk_outgoing (k + 1) (k + 33) (mk_ref (Some c68_act) RNone (RId (u8 "1a")) RNone RNone)].
Proof.
  refine (ji_paragraph (Some c68_act) k (u8 " (1a) bekezdéssel") _ _ _ eq_refl (c68_one PParagraph (u8 "1a") (u8 "sel") _ _ _) _ _); [|small|discriminate|apply ci_none, ci_last, ci_none, ci_none, ci_end].
  exists (u8 "1"), (u8 "a"). split; [reflexivity|]. split; [digit|]. constructor. unfold is_small; lia.
Qed.
Lemma c68_under k : joint_insertion (Some c68_act) k (u8 " a bekezdés a következő c) ponttal") [mk_outgoing (k + 1) (k + 34) (mk_ref (Some c68_act) RNone RNone (RId (u8 "c")) RNone)].
Proof.
  refine (ji_point (Some c68_act) k (u8 " a bekezdés") (u8 " c) ponttal") _ _ _ _ eq_refl (c68_one PAlphabeticPoint (u8 "c") (u8 "tal") _ _ _) _ _); [cbn; tauto| |small|discriminate|apply ci_none, ci_none, ci_last, ci_none, ci_end].
  left. exists 99%N. split; [reflexivity|unfold is_small; lia].
Qed.
Lemma c68_after k : joint_insertion (Some c68_act) k (u8 " a következő 3/A. §-sal") [mk_outgoing (k + 1) (k + 23) (mk_ref (Some c68_act) (RId (u8 "3/A")) RNone RNone RNone)].
Proof.
  apply ji_plain. refine (ins_article (Some c68_act) k (u8 " 3/A. §-sal") [] _ [] _ _ eq_refl (c68_one PArticle (u8 "3/A") (u8 "-sal") _ _ _) _ (c84_none _ _) _); [| |discriminate|apply ci_last, ci_none, ci_none, ci_none, ci_end].
  - apply (as_letter (u8 "3") 65%N); [digit|unfold is_capital; lia].
  - right. exists (u8 "sal"). split; [reflexivity|]. split; [discriminate|small].
Qed.
Lemma c68_more k : joint_insertion (Some c68_act) k (u8 " a § a következő (5) és (9) bekezdéssel")
  [mk_outgoing (k + 1) (k + 20) (mk_ref (Some c68_act) RNone (RId (u8 "5")) RNone RNone); mk_outgoing (k + 24) (k + 39) (mk_ref (Some c68_act) RNone (RId (u8 "9")) RNone RNone)].
Proof.
  replace (k + 24) with (k + 16 + 8) by lia. replace (k + 20) with (k + 16 + 4) by lia.
  refine (ji_paragraph (Some c68_act) k (u8 " (5) és (9) bekezdéssel") [mk_add PParagraph (RId (u8 "5")) (k + 16 + 1) (k + 16 + 4); mk_add PParagraph (RId (u8 "9")) (k + 16 + 8) (k + 16 + 11)] _ _ eq_refl (c68_two 53 57 _ (u8 "sel") _ _ _ _ _) _ _); [lia|lia|small| |discriminate|apply ci_none, ci_more, ci_last, ci_none, ci_none, ci_end].
  apply c84_alone; [|ordered|reflexivity]. apply gr_one; [apart|]. apply grouped_single.
Qed.
Definition c68_both : pystr := u8 "A Polgári Törvénykönyvről szóló 2013. évi V. törvény (a továbbiakban: Ptk.) 3. § (1) bekezdése helyébe a következő rendelkezés lép, és a § a következő (1a) bekezdéssel egészül ki:".
Definition c68_within : pystr := u8 "A Polgári Törvénykönyvről szóló 2013. évi V. törvény (a továbbiakban: Ptk.) 3. § (1) bekezdése helyébe a következő rendelkezés lép, és a bekezdés a következő c) ponttal egészül ki:".
Definition c68_clash : pystr := u8 "A Polgári Törvénykönyvről szóló 2013. évi V. törvény (a továbbiakban: Ptk.) 3. § (1) bekezdése helyébe a következő rendelkezés lép, és a következő 3/A. §-sal egészül ki:".
Definition c68_first_only : pystr := u8 "A Polgári Törvénykönyvről szóló 2013. évi V. törvény (a továbbiakban: Ptk.) 3. § (1) bekezdése helyébe a következő rendelkezés lép, és a § a következő (5) és (9) bekezdéssel egészül ki:".
Definition c68_second_only : pystr := u8 "A Polgári Törvénykönyvről szóló 2013. évi V. törvény (a továbbiakban: Ptk.) 3. § (1) és (3) bekezdése helyébe a következő rendelkezés lép, és a § a következő (1a) bekezdéssel egészül ki:".
Definition c68_neither : pystr := u8 "A Polgári Törvénykönyvről szóló 2013. évi V. törvény (a továbbiakban: Ptk.) 3. § (1) és (3) bekezdése helyébe a következő rendelkezés lép, és a § a következő (5) és (9) bekezdéssel egészül ki:".
Ltac level j := destruct j as [|[|[|[|[|j]]]]]; [reflexivity|reflexivity|reflexivity|reflexivity|reflexivity|lia].
Ltac fills n := exists n; split; [split; [lia|split; [discriminate|]]; intros j J; destruct j as [|[|[|j]]]; try reflexivity; lia|intros j J; level j].
Definition c68_told : list act_id_abbreviation := [mk_abbreviation (u8 "Ptk.") c68_act].
Definition c68_act_place : outgoing_reference := mk_outgoing 32 52 (mk_ref (Some c68_act) RNone RNone RNone RNone).
(* (1a) is after (1), so both are one range *)
Example C68_both_ex : block_written c68_both
  [c68_act_place; mk_outgoing 76 94 c68_first; mk_outgoing 135 167 (mk_ref (Some c68_act) (RId (u8 "3")) (RId (u8 "1a")) RNone RNone)]
  (BlockAmendment (ARef (mk_ref (Some c68_act) (RId (u8 "3")) (RRange (u8 "1") (u8 "1a")) RNone RNone)) false) c68_told.
Proof.
  pose proof (c68_pair _ _ _ _ c68_amended ltac:(now apply unplaced_check) (c68_new _) ltac:(now apply unplaced_check)) as W.
  assert (F : filled c68_first (with_act None (mk_ref (Some c68_act) RNone (RId (u8 "1a")) RNone RNone)) (mk_ref (Some c68_act) (RId (u8 "3")) (RId (u8 "1a")) RNone RNone)) by fills 2%nat.
  refine (bw_both c68_both _ 76 94 c68_first 135 167 _ _ _ _ W F _). destruct (both_ready _ _ _ _ _ _ _ _ _ _ W F) as (R & R' & _ & _).
  refine (un_over _ _ _ _ _ _ _ (first_ends _) (first_ends _) _ _).
  - intros L. destruct (contains_lies _ _ R R') as (b & C & H). apply H in L. rewrite L in C. vm_compute in C. discriminate C.
  - intros i I. destruct i as [|[|[|[|[|i]]]]]; [apply sp_same|apply sp_same| |apply sp_same|apply sp_same|lia]. apply sp_range. apply part_before_ids; [now apply decimal_check|now apply decimal_check|]. reflexivity.
Qed.
(* c) is under (1), so (1) is for both *)
Example C68_within_ex : block_written c68_within
  [c68_act_place; mk_outgoing 76 94 c68_first; mk_outgoing 135 168 (mk_ref (Some c68_act) (RId (u8 "3")) (RId (u8 "1")) (RId (u8 "c")) RNone)]
  (BlockAmendment (ARef c68_first) false) c68_told.
Proof.
  pose proof (c68_pair _ _ _ _ c68_amended ltac:(now apply unplaced_check) (c68_under _) ltac:(now apply unplaced_check)) as W.
  refine (bw_both c68_within _ 76 94 c68_first 135 168 _ _ _ _ W _ _); [fills 3%nat|]. refine (un_within _ _ _ _ _ _ (first_ends _) (first_ends _) _). split; [right|right; right];
    exists 3%nat; (split; [lia|]); [split; [constructor|]|split; [reflexivity|split; [discriminate|]]]; intros j J; (destruct j as [|[|[|j]]]; [reflexivity|reflexivity|reflexivity|lia]).
Qed.
(* only one of the two is one range *)
Example C68_half_ex :
  block_written c68_first_only [c68_act_place; mk_outgoing 76 94 c68_first] (BlockAmendment (ARef c68_first) false) c68_told /\
  block_written c68_second_only [c68_act_place; mk_outgoing 142 174 (mk_ref (Some c68_act) RNone (RId (u8 "1a")) RNone RNone)]
    (BlockAmendment (ARef (mk_ref (Some c68_act) RNone (RId (u8 "1a")) RNone RNone)) true) c68_told.
Proof.
  split.
  - pose proof (c68_pair _ _ _ _ c68_amended ltac:(now apply unplaced_check) (c68_more _) ltac:(now apply unplaced_check)) as W. refine (bw_first c68_first_only _ (mk_outgoing 76 94 c68_first) _ _ W _). discriminate.
  - pose proof (c68_pair _ _ _ _ c68_listed ltac:(now apply unplaced_check) (c68_new _) ltac:(now apply unplaced_check)) as W. refine (bw_second c68_second_only _ _ (mk_outgoing 142 174 (mk_ref (Some c68_act) RNone (RId (u8 "1a")) RNone RNone)) _ W _). discriminate.
Qed.
Example C68_neither_ex : lost_written c68_neither [c68_act_place] c68_told.
Proof.
  pose proof (c68_pair _ _ _ _ c68_listed ltac:(now apply unplaced_check) (c68_more _) ltac:(now apply unplaced_check)) as W. refine (lo_both c68_neither _ _ _ _ W _ _); discriminate.
Qed.
(* 3/A. § is neither in 3. § (1) nor can it be in one range with it *)
Example C68_impossible_ex : clash_written c68_clash.
Proof.
  pose proof (c68_pair _ _ _ _ c68_amended ltac:(now apply unplaced_check) (c68_after _) ltac:(now apply unplaced_check)) as W.
  assert (F : filled c68_first (with_act None (mk_ref (Some c68_act) (RId (u8 "3/A")) RNone RNone RNone)) (mk_ref (Some c68_act) (RId (u8 "3/A")) RNone RNone RNone)) by fills 1%nat.
  refine (cl_both c68_clash _ 76 94 c68_first _ _ _ _ _ W F _). destruct (both_ready _ _ _ _ _ _ _ _ _ _ W F) as (R & R' & A & E). intros u U.
  pose proof (proj1 (united_converts _ _ _ R R' A E) u U) as H. vm_compute in H. discriminate H.
Qed.
