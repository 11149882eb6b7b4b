(* Property C85: amendments and repeals of chapters, parts, titles and numbered subtitles are recognised. *)
From Coq Require Import Lia.
From Coq Require Import ZifyBool ZifyNat ZifyN.
From Verif Require Import PyBase PyBaseFacts NumModel NumSpec IdModel DateModel RefModel RefSpec RefProofs TreeModel SemModel GramModel GramSpec PegModel PegSpec PegSpec2 PegSpec3 PegProofs2 PegProofs33 PegProofs34 JointProofs2 DivSpec DivProofs DivProofs2 P_Told P_Cite P_Amends.
Local Open Scope Z_scope.

(** C85 *)
Theorem C85_found : forall text refs semantic abbrs, divided text refs semantic abbrs ->
  grammar_analyzer text = Some (mk_analysis refs [semantic] abbrs).
Proof. exact divided_found. Qed.
Print Assumptions C85_found.
(* It can be read in one way only. *)
Theorem C85_unique : forall text refs semantic abbrs refs' semantic' abbrs', divided text refs semantic abbrs -> divided text refs' semantic' abbrs' ->
  refs = refs' /\ semantic = semantic' /\ abbrs = abbrs'.
Proof. intros text l s m l' s' m' B B'. pose proof (divided_found _ _ _ _ B) as H. rewrite (divided_found _ _ _ _ B') in H. injection H as -> -> ->. auto. Qed.
Print Assumptions C85_unique.
(* No sentence is both this and an amendment of articles or of what is in them. *)
Theorem C85_apart : forall text refs semantic abbrs refs' semantic' abbrs', divided text refs semantic abbrs -> ~ block_written text refs' semantic' abbrs'.
Proof.
  intros text l s m l' s' m' B B'. pose proof (divided_found _ _ _ _ B) as H. rewrite (block_found _ _ _ _ B') in H. injection H as <- <- <-.
  destruct B'; inversion B.
Qed.
Print Assumptions C85_apart.

Lemma c85_letter l : ~ In 65%N l -> letter_after l (u8 "/A") /\ letter_after l (u8 "A").
Proof. intros N. split; (right; exists 65%N; split; [lia|]); [left; reflexivity|right; split; [reflexivity|exact N]]. Qed.
Lemma c85_no_a : ~ In 65%N NumSpec.roman_letters.
Proof. cbn. intuition discriminate. Qed.
Lemma c85_short : act_written (u8 "Ptk.") (u8 "Ptk.") [] [].
Proof. apply aw_short. exists 80%N, (u8 "tk"). split; [reflexivity|]. split; [left; unfold is_capital; lia|]. split; [discriminate|]. small. Qed.
Lemma c85_blank : title_words (u8 " ").
Proof. split; [checks|]. exists [], 32%N. repeat split. Qed.
Definition c85_chapter : pystr := u8 "A Polgári Törvénykönyvről szóló 2013. évi V. törvény (a továbbiakban: Ptk.) IV/A. Fejezete helyébe a következő fejezet lép:".
Definition c85_subtitle : pystr := u8 "A Ptk. a következő 5/A. alcímmel egészül ki:".
Definition c85_title : pystr := u8 "A Ptk. Első Könyve a következő IIIA. Címmel egészül ki:".
Definition c85_part : pystr := u8 "Hatályát veszti a Ptk. Második Könyv Harmadik Része.".
Example C85_found_ex :
  divided c85_chapter [] (BlockAmendment (ASRef (mk_sref (Some c68_act) None None None (Some (u8 "4/A")) None None)) false) [mk_abbreviation (u8 "Ptk.") c68_act] /\
  divided c85_subtitle [] (BlockAmendment (ASRef (mk_sref (Some (u8 "Ptk.")) None None None None (Some (u8 "5/A")) None)) true) [] /\
  divided c85_title [] (BlockAmendment (ASRef (mk_sref (Some (u8 "Ptk.")) (Some (u8 "1")) None (Some (u8 "3A")) None None None)) true) [] /\
  divided c85_part [mk_outgoing 18 22 (act_only (u8 "Ptk."))] (Repeal (ASRef (mk_sref (Some (u8 "Ptk.")) (Some (u8 "2")) (Some (u8 "3")) None None None None)) None) [].
Proof.
  split; [|split; [|split]].
  - refine (di_amended (u8 "A") (u8 " Polgári Törvénykönyvről szóló ") c68_act (u8 "2013. évi V. törvény") (u8 " (a továbbiakban: Ptk.)") _ (u8 "IV/A. Fejezete") _ (u8 " helyébe a következő fejezet lép") _ c68_title c68_named _ _ _ _);
      [cbn; tauto| |now apply unmixed_check|intros _; now apply untitled_check|right; cbn; tauto].
    apply (dv_chapter c68_act (u8 "IV/A") (u8 "4/A") (u8 "e")); [|small]. apply (nw_roman 4 (u8 "/A")); [lia|]. apply c85_letter, c85_no_a.
  - refine (di_inserted (u8 "A") (u8 " ") (u8 "Ptk.") (u8 "Ptk.") [] _ (u8 "5/A. alcímmel") _ (u8 " egészül ki") _ c85_blank c85_short _ _ _ _); [cbn; tauto| |now apply unmixed_check|now apply untitled_check|cbn; tauto].
    apply (dv_subtitle (u8 "Ptk.") (u8 "5") (u8 "/A") (u8 "mel")); [digit|apply c85_letter; intros []|small].
  - refine (di_titled (u8 "A") (u8 " ") (u8 "Ptk.") (u8 "Ptk.") [] _ (u8 "Első") (u8 "1") (u8 "IIIA") (u8 "3A") (u8 "mel") (u8 " egészül ki") _ c85_blank c85_short _ _ _ _ _ _); [cbn; tauto| | |small|now apply unmixed_check|now apply untitled_check|cbn; tauto].
    + exists 0%nat. split; reflexivity.
    + apply (nw_roman 3 (u8 "A")); [lia|]. apply c85_letter, c85_no_a.
  - refine (di_repealed (u8 "Hatályát veszti") (u8 " a ") [] (u8 "Ptk.") (u8 "Ptk.") [] _ (u8 "Második Könyv Harmadik Része") _ 18 _ _ _ _ c85_short eq_refl _ _ _); [cbn; tauto|cbn; tauto|checks|now left| |now apply unmixed_check|intros _; now apply untitled_check].
    refine (dv_part (u8 "Ptk.") (u8 "Második Könyv ") (Some (u8 "2")) (u8 "Harmadik") (u8 "3") (u8 "e") (bk_some (u8 "Második") (u8 "2") _) _ _); [exists 1%nat; split; reflexivity|exists 2%nat; split; reflexivity|small].
Qed.
Example C85_unique_ex : grammar_analyzer c85_chapter = Some (mk_analysis [] [BlockAmendment (ASRef (mk_sref (Some c68_act) None None None (Some (u8 "4/A")) None None)) false] [mk_abbreviation (u8 "Ptk.") c68_act]).
Proof. vm_compute. reflexivity. Qed.
Example C85_apart_ex : ~ (exists refs semantic abbrs, block_written c85_chapter refs semantic abbrs) /\ exists refs semantic abbrs, block_written c68_amendment refs semantic abbrs.
Proof.
  split; [intros (l & s & m & H); exact (C85_apart _ _ _ _ _ _ _ (proj1 C85_found_ex) H)|]. do 3 eexists. exact (proj1 C68_found_ex).
Qed.
