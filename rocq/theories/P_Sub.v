(* Property C86: subtitles that are inserted, replaced or repealed are recognised, with their places. *)
From Coq Require Import Lia.
From Coq Require Import ZifyBool ZifyNat ZifyN.
From Verif Require Import PyBase PyBaseFacts NumModel NumSpec IdModel DateModel RefModel RefSpec RefProofs TreeModel SemModel GramModel GramSpec PegModel PegSpec PegSpec2 PegSpec3 PegProofs2 PegProofs33 PegProofs34 JointProofs2 DivSpec DivProofs DivProofs2 SubSpec SubProofs SubProofs2 SubProofs3 SubProofs4 P_Told P_Cite P_Amends P_Div.
Local Open Scope Z_scope.

(** C86 *)
Theorem C86_found : forall text refs semantic abbrs, subtitled text refs semantic abbrs ->
  grammar_analyzer text = Some (mk_analysis refs [semantic] abbrs).
Proof. exact subtitled_found. Qed.
Print Assumptions C86_found.
(* It can be read in one way only, also if the same is said of divisions with numbers. *)
Theorem C86_unique : forall text refs semantic abbrs refs' semantic' abbrs', subtitled text refs semantic abbrs -> subtitled text refs' semantic' abbrs' \/ divided text refs' semantic' abbrs' ->
  refs = refs' /\ semantic = semantic' /\ abbrs = abbrs'.
Proof.
  intros text l s m l' s' m' B B'. pose proof (subtitled_found _ _ _ _ B) as H. destruct B' as [B'|B'];
    [rewrite (subtitled_found _ _ _ _ B') in H|rewrite (divided_found _ _ _ _ B') in H]; injection H as -> -> ->; auto.
Qed.
Print Assumptions C86_unique.
(* No sentence is both this and an amendment of articles or of what is in them. *)
Theorem C86_apart : forall text refs semantic abbrs refs' semantic' abbrs', subtitled text refs semantic abbrs -> ~ block_written text refs' semantic' abbrs'.
Proof.
  intros text l s m l' s' m' B B'. pose proof (subtitled_found _ _ _ _ B) as H. rewrite (block_found _ _ _ _ B') in H. injection H as <- <- <-.
  destruct B'; inversion B.
Qed.
Print Assumptions C86_apart.

Definition c86_before : pystr := u8 "A Polgári Törvénykönyvről szóló 2013. évi V. törvény (a továbbiakban: Ptk.) IX. Fejezete a 300/A. §-t megelőzően a következő alcímmel egészül ki:".
Definition c86_together : pystr := u8 "A Ptk. XX. Fejezete a következő alcímmel és 212/A. §-sal egészül ki:".
Definition c86_after : pystr := u8 "A Ptk. 5:83. §-t követő alcím címe helyébe a következő alcím lép:".
Definition c86_article : pystr := u8 "A Ptk. a következő 226/A–226/C. §-sal és az azokat megelőző alcímmel egészül ki:".
Definition c86_both : pystr := u8 "A Ptk. 349. §-a és az azt megelőző alcím helyébe a következő rendelkezés lép:".
Definition c86_repeal : pystr := u8 "Hatályát veszti a Ptk. 297. §-t megelőző alcíme.".
Definition c86_titled : pystr := u8 "A Ptk. „ A vételi jog” című alcíme helyébe a következő rendelkezés lép:".
Definition c86_title_repeal : pystr := u8 "Nem lép hatályba a Ptk. „A vételi jog” alcíme.".
Lemma c86_place a c i e v t : chapter_before c -> article_shape i -> sign_ending e -> In (v, t) [(u8 "megelőzően", BEFORE_WITHOUT_ARTICLE); (u8 "követő", AFTER)] ->
  place_written a (c ++ u8 "a " ++ i ++ u8 ". §" ++ e ++ u8 " " ++ v) (at_article a t i) /\ place_written a (c ++ [] ++ i ++ u8 ". §" ++ e ++ u8 " " ++ v) (at_article a t i).
Proof. intros C A E V. split; apply pl_written; try assumption; try (cbn; tauto); destruct V as [V|[V|[]]]; injection V as <- <-; cbn; tauto. Qed.
Lemma c86_ending l : l <> [] -> Forall hun_small l -> sign_ending (45%N :: l).
Proof. intros N H. right. exists l. auto. Qed.
Example C86_found_ex :
  subtitled c86_before [] (BlockAmendment (ASRef (at_article c68_act BEFORE_WITHOUT_ARTICLE (u8 "300/A"))) true) [mk_abbreviation (u8 "Ptk.") c68_act] /\
  subtitled c86_together [] (BlockAmendment (ASRef (at_article (u8 "Ptk.") BEFORE_WITH_ARTICLE (u8 "212/A"))) true) [] /\
  subtitled c86_after [] (BlockAmendment (ASRef (at_article (u8 "Ptk.") AFTER (u8 "5:83"))) false) [] /\
  subtitled c86_article [] (BlockAmendment (ASRef (at_article (u8 "Ptk.") BEFORE_WITH_ARTICLE (u8 "226/A"))) true) [] /\
  subtitled c86_both [] (BlockAmendment (ASRef (at_article (u8 "Ptk.") BEFORE_WITH_ARTICLE (u8 "349"))) false) [] /\
  subtitled c86_repeal [mk_outgoing 18 22 (act_only (u8 "Ptk."))] (Repeal (ASRef (at_article (u8 "Ptk.") BEFORE_WITHOUT_ARTICLE (u8 "297"))) None) [] /\
  subtitled c86_titled [] (BlockAmendment (ASRef (mk_sref (Some (u8 "Ptk.")) None None None None (Some (u8 "A vételi jog")) None)) false) [] /\
  subtitled c86_title_repeal [mk_outgoing 19 23 (act_only (u8 "Ptk."))] (Repeal (ASRef (mk_sref (Some (u8 "Ptk.")) None None None None (Some (u8 "A vételi jog")) None)) None) [].
Proof.
  split; [|split; [|split; [|split; [|split; [|split; [|split]]]]]].
  - refine (su_inserted (u8 "A") (u8 " Polgári Törvénykönyvről szóló ") c68_act (u8 "2013. évi V. törvény") (u8 " (a továbbiakban: Ptk.)") _ (u8 " IX. Fejezete a 300/A. §-t megelőzően") _ (u8 " egészül ki") _ c68_title c68_named _ _); [cbn; tauto| |cbn; tauto].
    apply (po_place c68_act (u8 "IX. Fejezete a 300/A. §-t megelőzően")).
    refine (proj1 (c86_place c68_act (u8 "IX. Fejezete ") (u8 "300/A") (u8 "-t") (u8 "megelőzően") BEFORE_WITHOUT_ARTICLE _ _ _ _)); [|apply (as_letter (u8 "300") 65%N); [digit|unfold is_capital; lia]|apply (c86_ending (u8 "t")); [discriminate|small]|cbn; tauto].
    right. exists (u8 "IX"), (u8 "9"), (u8 "e"). split; [|split; [small|reflexivity]]. apply (nw_roman 9 []); [lia|]. now left.
  - refine (su_together (u8 "A") (u8 " ") (u8 "Ptk.") (u8 "Ptk.") [] _ (u8 " XX. Fejezete") _ (RId (u8 "212/A")) (u8 "212/A") (u8 "212/A. §-sal") (u8 " egészül ki") _ c85_blank c85_short (po_chapter (u8 "Ptk.") (u8 "XX") (u8 "20") (u8 "e") _ _ _) _ _ _ _); [cbn; tauto|apply (nw_roman 20 []); [lia|now left]|small|now apply untitled_check| |now left|now apply untitled_check|cbn; tauto].
    exists (u8 "212/A."), (u8 "-sal"). split; [|split]; [| |reflexivity].
    + apply (iw_one PArticle (u8 "212/A")). apply (as_letter (u8 "212") 65%N); [digit|unfold is_capital; lia].
    + apply (c86_ending (u8 "sal")); [discriminate|small].
  - refine (su_replaced (u8 "A") (u8 " ") (u8 "Ptk.") (u8 "Ptk.") [] _ (u8 "5:83. §-t követő") _ (u8 " alcím címe") (u8 " helyébe a következő alcím lép") _ c85_blank c85_short _ _ _); [cbn; tauto| |cbn; tauto|right; cbn; tauto].
    refine (proj2 (c86_place (u8 "Ptk.") [] (u8 "5:83") (u8 "-t") (u8 "követő") AFTER _ _ _ _)); [now left|apply (as_book (u8 "5") (u8 "83")); digit|apply (c86_ending (u8 "t")); [discriminate|small]|cbn; tauto].
  - refine (su_article_inserted (u8 "A") (u8 " ") (u8 "Ptk.") (u8 "Ptk.") [] _ [] _ (RRange (u8 "226/A") (u8 "226/C")) (u8 "226/A") (u8 "226/A–226/C. §-sal") (u8 " és az azokat megelőző") (u8 " egészül ki") _ c85_blank c85_short (po_none _) _ _ _ _ _); [cbn; tauto| |right; eexists; reflexivity|now apply untitled_check|cbn; tauto|cbn; tauto].
    exists (u8 "226/A–226/C."), (u8 "-sal"). split; [|split]; [| |reflexivity].
    + refine (iw_range PArticle (u8 "226/A") 8211%N (u8 "226/C") _ _ _); [apply (as_letter (u8 "226") 65%N); [digit|unfold is_capital; lia]|apply (as_letter (u8 "226") 67%N); [digit|unfold is_capital; lia]|right; now left].
    + apply (c86_ending (u8 "sal")); [discriminate|small].
  - refine (su_article_replaced (u8 "A") (u8 " ") (u8 "Ptk.") (u8 "Ptk.") [] _ (RId (u8 "349")) (u8 "349") (u8 "349. §-a") (u8 " és az azt megelőző") (u8 " alcím") (u8 " helyébe a következő rendelkezés lép") _ c85_blank c85_short _ _ _ _ _ _ _); [cbn; tauto| |now left|now apply untitled_check|cbn; tauto|cbn; tauto|now apply untitled_check|left; cbn; tauto].
    exists (u8 "349."), (u8 "-a"). split; [|split]; [| |reflexivity].
    + apply (iw_one PArticle (u8 "349")). apply (as_plain (u8 "349")). digit.
    + apply (c86_ending (u8 "a")); [discriminate|small].
  - refine (su_repealed (u8 "Hatályát veszti") (u8 " a ") [] (u8 "Ptk.") (u8 "Ptk.") [] _ (u8 "297. §-t megelőző") _ (u8 " alcíme") 18 _ _ _ _ c85_short eq_refl _ _); [cbn; tauto|cbn; tauto|checks|now left| |cbn; tauto].
    refine (pl_written (u8 "Ptk.") [] [] (u8 "297") (u8 "-t") (u8 "megelőző") BEFORE_WITHOUT_ARTICLE _ _ _ _ _); [now left|now left|apply (as_plain (u8 "297")); digit|apply (c86_ending (u8 "t")); [discriminate|small]|cbn; tauto].
  - refine (su_titled (u8 "A") (u8 " ") (u8 "Ptk.") (u8 "Ptk.") [] _ (u8 " A vételi jog") (u8 " című alcíme") (u8 " helyébe a következő rendelkezés lép") _ c85_blank c85_short _ _ _); [cbn; tauto|split; cbn; intuition discriminate|cbn; tauto|left; cbn; tauto].
  - refine (su_title_repealed (u8 "Nem lép hatályba") (u8 " a ") [] (u8 "Ptk.") (u8 "Ptk.") [] _ (u8 "A vételi jog") (u8 " alcíme") 19 _ _ _ _ c85_short eq_refl _ _); [cbn; tauto|cbn; tauto|checks|now left|split; cbn; intuition discriminate|cbn; tauto].
Qed.
Example C86_unique_ex : grammar_analyzer c86_together = Some (mk_analysis [] [BlockAmendment (ASRef (at_article (u8 "Ptk.") BEFORE_WITH_ARTICLE (u8 "212/A"))) true] []).
Proof. vm_compute. reflexivity. Qed.
Example C86_apart_ex : ~ (exists refs semantic abbrs, block_written c86_before refs semantic abbrs) /\ exists refs semantic abbrs, block_written c68_amendment refs semantic abbrs.
Proof.
  split; [intros (l & s & m & H); exact (C86_apart _ _ _ _ _ _ _ (proj1 C86_found_ex) H)|]. do 3 eexists. exact (proj1 C68_found_ex).
Qed.

(* A subtitle that is named by its number or its title and replaced by a subtitle is not recognised. *)
Example C86_missed_ex :
  option_map an_semantic (grammar_analyzer (u8 "A Ptk. 5. alcíme helyébe a következő alcím lép:")) = Some [] /\
  option_map an_semantic (grammar_analyzer (u8 "A Ptk. „A vételi jog” alcíme helyébe a következő alcím lép:")) = Some [].
Proof. split; vm_compute; reflexivity. Qed.
