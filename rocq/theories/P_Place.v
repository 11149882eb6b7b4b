(* Property C87: what is inserted or replaced at a named place is recognised, and the place is not stored. *)
From Coq Require Import Lia.
From Coq Require Import ZifyBool ZifyNat ZifyN.
From Verif Require Import PyBase PyBaseFacts NumModel NumSpec IdModel DateModel RefModel RefSpec RefProofs TreeModel SemModel GramModel GramSpec PegModel PegSpec PegSpec2 PegSpec3 PegProofs2 PegProofs33 PegProofs34 JointProofs2 DivSpec DivProofs DivProofs2 SubSpec SubProofs SubProofs2 SubProofs3 SubProofs4 PlaceSpec PlaceProofs CiteSpec CiteProofs CiteProofs4 P_Told P_Cite P_Amends P_Div P_Sub.
Local Open Scope Z_scope.

(** C87 *)
Theorem C87_found : forall text refs semantic abbrs, placed text refs semantic abbrs ->
  grammar_analyzer text = Some (mk_analysis refs [semantic] abbrs).
Proof. exact placed_found. Qed.
Print Assumptions C87_found.
(* It can be read in one way only, also if the same is said without a place. *)
Theorem C87_unique : forall text refs semantic abbrs refs' semantic' abbrs', placed text refs semantic abbrs -> placed text refs' semantic' abbrs' \/ block_written text refs' semantic' abbrs' ->
  refs = refs' /\ semantic = semantic' /\ abbrs = abbrs'.
Proof.
  intros text l s m l' s' m' B B'. pose proof (placed_found _ _ _ _ B) as H. destruct B' as [B'|B'];
    [rewrite (placed_found _ _ _ _ B') in H|rewrite (block_found _ _ _ _ B') in H]; injection H as -> -> ->; auto.
Qed.
Print Assumptions C87_unique.
(* No sentence is both this and an amendment of a subtitle or a division. *)
Theorem C87_apart : forall text refs semantic abbrs refs' semantic' abbrs', placed text refs semantic abbrs -> ~ (subtitled text refs' semantic' abbrs' \/ divided text refs' semantic' abbrs').
Proof.
  intros text l s m l' s' m' B B'. pose proof (placed_found _ _ _ _ B) as H. destruct B' as [B'|B'].
  - rewrite (subtitled_found _ _ _ _ B') in H. injection H as <- <- <-. inversion B; subst; inversion B'.
  - rewrite (divided_found _ _ _ _ B') in H. injection H as <- <- <-. inversion B; subst; inversion B'.
Qed.
Print Assumptions C87_apart.
(* Nothing in what is stored depends on which place it is: any other place of the same length gives the same. *)
Theorem C87_lost : forall z u a x y m w w' i o f, article_word z -> title_words u -> act_written a x y m -> named_place w -> named_place w' -> size w = size w' ->
  insertion_written (Some a) (size z + size u + size x + size y + size w) (u8 " a következő " ++ i) [o] -> untitled i -> insertion_ending f ->
  grammar_analyzer (z ++ u ++ x ++ y ++ w ++ u8 " a következő " ++ i ++ f ++ u8 ":") = grammar_analyzer (z ++ u ++ x ++ y ++ w' ++ u8 " a következő " ++ i ++ f ++ u8 ":").
Proof.
  intros z u a x y m w w' i o f Z V A P P' E I Ui F. rewrite (placed_found _ _ _ _ (pc_inserted z u a x y m w i o f _ Z V A eq_refl P I Ui F)). rewrite E in I.
  now rewrite (placed_found _ _ _ _ (pc_inserted z u a x y m w' i o f _ Z V A eq_refl P' I Ui F)).
Qed.
Print Assumptions C87_lost.
Theorem C87_lost_at : forall z u a x y m w w' i o f, article_word z -> title_words u -> act_written a x y m -> plain_place (u8 " " ++ i ++ f ++ u8 ":") w -> plain_place (u8 " " ++ i ++ f ++ u8 ":") w' -> size w = size w' ->
  insertion_written (Some a) (size z + size u + size x + size y + size w) (u8 " " ++ i) [o] /\ insertion_ending f \/
  reference_listed (Some a) (size z + size u + size x + size y + size w + 1) i [o] /\ amendment_ending f ->
  grammar_analyzer (z ++ u ++ x ++ y ++ w ++ u8 " " ++ i ++ f ++ u8 ":") = grammar_analyzer (z ++ u ++ x ++ y ++ w' ++ u8 " " ++ i ++ f ++ u8 ":").
Proof.
  intros z u a x y m w w' i o f Z V A P P' E [[I F]|[I F]].
  - rewrite (placed_found _ _ _ _ (pc_at_inserted z u a x y m w i o f _ Z V A eq_refl P I F)). rewrite E in I. now rewrite (placed_found _ _ _ _ (pc_at_inserted z u a x y m w' i o f _ Z V A eq_refl P' I F)).
  - rewrite (placed_found _ _ _ _ (pc_at_replaced z u a x y m w i o f _ Z V A eq_refl P I F)). rewrite E in I. now rewrite (placed_found _ _ _ _ (pc_at_replaced z u a x y m w' i o f _ Z V A eq_refl P' I F)).
Qed.
Print Assumptions C87_lost_at.

Definition c87_text (w : pystr) : pystr := u8 "A" ++ u8 " " ++ u8 "Ptk." ++ [] ++ w ++ u8 " a következő " ++ u8 "21. §-sal" ++ u8 " egészül ki" ++ u8 ":".
Definition c87_chapter : pystr := u8 " XX. Fejezete".
Definition c87_chapter' : pystr := u8 " XI. Fejezete".
Definition c87_titled : pystr := u8 " „Az ügynök” alcíme".
Lemma c87_inserted k : insertion_written (Some (u8 "Ptk.")) k (u8 " a következő " ++ u8 "21. §-sal") [mk_outgoing (k + 1) (k + 22) (mk_ref (Some (u8 "Ptk.")) (RId (u8 "21")) RNone RNone RNone)].
Proof.
  pose proof (ins_article (Some (u8 "Ptk.")) k (u8 " 21. §-sal") [] [mk_add PArticle (RId (u8 "21")) (k + 13) (k + 16)] []) as H. cbv zeta in H. apply (H _ (u8 " a következő 21. §-sal") eq_refl); clear H; [|discriminate|now left|].
  - change (size (u8 " a következő")) with 12. right. exists PArticle, (u8 "21."), (u8 "-sal"), [mk_add PArticle (RId (u8 "21")) (k + 13) (k + 16)]. split; [reflexivity|]. split.
    + pose proof (it_last PArticle (k + 13) (RId (u8 "21")) (u8 "21.") (iw_one PArticle (u8 "21") (as_plain (u8 "21") ltac:(digit)))) as L. change (size (u8 "21.")) with 3 in L. replace (k + 13 + 3) with (k + 16) in L by lia. replace (k + 12 + 1) with (k + 13) by lia. exact L.
    + split; [right; exists (u8 "sal"); split; [reflexivity|]; split; [discriminate|small]|]. split; [discriminate|]. split; [|reflexivity]. eexists. split; [apply grouped_single|]. split; [reflexivity|]. ordered.
  - change (size (u8 " a következő 21. §-sal")) with 22. exact (ci_last 1 _ _ _ _ _ _ (ci_none 2 _ _ _ _ _ (ci_none 3 _ _ _ _ _ (ci_none 4 _ _ _ _ _ (ci_end 5 _ _ _))))).
Qed.
Lemma c87_at w k : named_place w -> k = 6 + size w -> placed (c87_text w) [mk_outgoing 2 6 (act_only (u8 "Ptk.")); mk_outgoing (k + 1) (k + 22) (mk_ref (Some (u8 "Ptk.")) (RId (u8 "21")) RNone RNone RNone)]
  (BlockAmendment (ARef (mk_ref (Some (u8 "Ptk.")) (RId (u8 "21")) RNone RNone RNone)) true) [].
Proof.
  intros P ->. refine (pc_inserted (u8 "A") (u8 " ") (u8 "Ptk.") (u8 "Ptk.") [] _ w (u8 "21. §-sal") (mk_outgoing _ _ _) (u8 " egészül ki") 2 _ c85_blank c85_short eq_refl P _ _ _); [cbn; tauto| |now apply untitled_check|cbn; tauto].
  exact (c87_inserted (6 + size w)).
Qed.
Lemma c87_places : named_place c87_chapter /\ named_place c87_chapter' /\ named_place c87_titled.
Proof.
  split; [|split].
  - refine (np_position (u8 "Ptk.") _ _ (po_chapter (u8 "Ptk.") (u8 "XX") (u8 "20") (u8 "e") _ _ _)); [apply (nw_roman 20 []); [lia|now left]|small|now apply untitled_check].
  - refine (np_position (u8 "Ptk.") _ _ (po_chapter (u8 "Ptk.") (u8 "XI") (u8 "11") (u8 "e") _ _ _)); [apply (nw_roman 11 []); [lia|now left]|small|now apply untitled_check].
  - refine (np_titled (u8 "Az ügynök") (u8 " alcíme") _ _); [split; cbn; intuition discriminate|cbn; tauto].
Qed.
Definition c87_replaced (w : pystr) : pystr := u8 "A" ++ u8 " " ++ u8 "Ptk." ++ [] ++ w ++ u8 " " ++ u8 "3. § (1) bekezdése" ++ u8 " helyébe a következő rendelkezés lép" ++ u8 ":".
Definition c87_after : pystr := u8 " a 2/B. §-t követő".
Lemma c87_listed act k : reference_listed (Some act) k (u8 "3. § (1) bekezdése") [mk_outgoing k (k + 18) (mk_ref (Some act) (RId (u8 "3")) (RId (u8 "1")) RNone RNone)].
Proof.
  apply (reference_single (mk_ref (Some act) (RId (u8 "3")) (RId (u8 "1")) RNone RNone) k). exists (u8 " 3. §"), (u8 " (1) bekezdése"), [], []. split; [apply (c67_article (u8 "3") []); [constructor; digit|now left]|].
  split; [apply (c68_paragraph (u8 "1") (u8 "e")); [digit|small]|split; [apply c67_none|split; [apply c67_none|split; [reflexivity|now left]]]].
Qed.
Lemma c87_plain s : plain_place s c87_titled /\ plain_place s c87_after.
Proof.
  split; [refine (pp_titled _ (u8 "Az ügynök") (u8 " alcíme") _ _); [split; cbn; intuition discriminate|cbn; tauto]|]. refine (pp_place _ (u8 "Ptk.") (u8 "a 2/B. §-t követő") _ _).
  refine (proj1 (c86_place (u8 "Ptk.") [] (u8 "2/B") (u8 "-t") (u8 "követő") AFTER _ _ _ _)); [now left|apply (as_letter (u8 "2") 66%N); [digit|unfold is_capital; lia]|apply (c86_ending (u8 "t")); [discriminate|small]|cbn; tauto].
Qed.
Lemma c87_replaced_at w k : plain_place (u8 " 3. § (1) bekezdése helyébe a következő rendelkezés lép:") w -> k = 7 + size w -> placed (c87_replaced w) [mk_outgoing 2 6 (act_only (u8 "Ptk.")); mk_outgoing k (k + 18) (mk_ref (Some (u8 "Ptk.")) (RId (u8 "3")) (RId (u8 "1")) RNone RNone)]
  (BlockAmendment (ARef (mk_ref (Some (u8 "Ptk.")) (RId (u8 "3")) (RId (u8 "1")) RNone RNone)) false) [].
Proof.
  intros P ->. refine (pc_at_replaced (u8 "A") (u8 " ") (u8 "Ptk.") (u8 "Ptk.") [] _ w (u8 "3. § (1) bekezdése") (mk_outgoing _ _ _) (u8 " helyébe a következő rendelkezés lép") 2 _ c85_blank c85_short eq_refl P _ _); [cbn; tauto| |cbn; tauto].
  replace (7 + size w) with (2 + size (u8 "Ptk.") + size [] + size w + 1) by (change (size (u8 "Ptk.")) with 4; change (size []) with 0; lia). apply c87_listed.
Qed.
Definition c87_book : pystr := u8 " Hatodik Könyv Második Része".
Lemma calm_check w : contains_sub (u8 "követő") w = false -> contains_sub (u8 "megelőző") w = false -> calm w.
Proof. intros A B. split; intros (u & v & E); [rewrite (proj2 (contains_sub_spec (u8 "követő") w)) in A|rewrite (proj2 (contains_sub_spec (u8 "megelőző") w)) in B]; try discriminate; now exists u, v. Qed.
Lemma c87_division : plain_place (u8 " 3. § (1) bekezdése helyébe a következő rendelkezés lép:") c87_book.
Proof.
  refine (pp_division _ (u8 "Ptk.") (u8 "Hatodik Könyv Második Része") _ (dv_part (u8 "Ptk.") (u8 "Hatodik Könyv ") (Some (u8 "6")) (u8 "Második") (u8 "2") (u8 "e") _ _ _) _ _).
  - apply (bk_some (u8 "Hatodik") (u8 "6")). exists 5%nat. split; reflexivity.
  - exists 1%nat. split; reflexivity.
  - small.
  - intros _. now apply untitled_check.
  - now apply calm_check.
Qed.
Example C87_found_ex :
  placed (u8 "A Ptk. XX. Fejezete a következő 21. §-sal egészül ki:") [mk_outgoing 2 6 (act_only (u8 "Ptk.")); mk_outgoing 20 41 (mk_ref (Some (u8 "Ptk.")) (RId (u8 "21")) RNone RNone RNone)]
    (BlockAmendment (ARef (mk_ref (Some (u8 "Ptk.")) (RId (u8 "21")) RNone RNone RNone)) true) [] /\
  placed (u8 "A Ptk. „Az ügynök” alcíme a következő 21. §-sal egészül ki:") [mk_outgoing 2 6 (act_only (u8 "Ptk.")); mk_outgoing 26 47 (mk_ref (Some (u8 "Ptk.")) (RId (u8 "21")) RNone RNone RNone)]
    (BlockAmendment (ARef (mk_ref (Some (u8 "Ptk.")) (RId (u8 "21")) RNone RNone RNone)) true) [] /\
  placed (u8 "A Ptk. „Az ügynök” alcíme 3. § (1) bekezdése helyébe a következő rendelkezés lép:") [mk_outgoing 2 6 (act_only (u8 "Ptk.")); mk_outgoing 26 44 (mk_ref (Some (u8 "Ptk.")) (RId (u8 "3")) (RId (u8 "1")) RNone RNone)]
    (BlockAmendment (ARef (mk_ref (Some (u8 "Ptk.")) (RId (u8 "3")) (RId (u8 "1")) RNone RNone)) false) [] /\
  placed (u8 "A Ptk. Hatodik Könyv Második Része 3. § (1) bekezdése helyébe a következő rendelkezés lép:") [mk_outgoing 2 6 (act_only (u8 "Ptk.")); mk_outgoing 35 53 (mk_ref (Some (u8 "Ptk.")) (RId (u8 "3")) (RId (u8 "1")) RNone RNone)]
    (BlockAmendment (ARef (mk_ref (Some (u8 "Ptk.")) (RId (u8 "3")) (RId (u8 "1")) RNone RNone)) false) [].
Proof.
  split; [exact (c87_at c87_chapter 19 (proj1 c87_places) eq_refl)|]. split; [exact (c87_at c87_titled 25 (proj2 (proj2 c87_places)) eq_refl)|]. split; [exact (c87_replaced_at c87_titled 26 (proj1 (c87_plain _)) eq_refl)|].
  exact (c87_replaced_at c87_book 35 c87_division eq_refl).
Qed.
Example C87_both_ex :
  placed (u8 "A Polgári Törvénykönyvről szóló 2013. évi V. törvény (a továbbiakban: Ptk.) „Az ügynök” alcíme 3. § (1) bekezdése helyébe a következő rendelkezés lép, és a bekezdés a következő c) ponttal egészül ki:")
    [mk_outgoing 32 52 (act_only c68_act); mk_outgoing 95 113 c68_first; mk_outgoing 154 187 (mk_ref (Some c68_act) (RId (u8 "3")) (RId (u8 "1")) (RId (u8 "c")) RNone)]
    (BlockAmendment (ARef c68_first) false) [mk_abbreviation (u8 "Ptk.") c68_act].
Proof.
  refine (pc_at_both (u8 "A") (u8 " Polgári Törvénykönyvről szóló ") c68_act (u8 "2013. évi V. törvény") (u8 " (a továbbiakban: Ptk.)") _ c87_titled (u8 "3. § (1) bekezdése") 95 113 c68_first (u8 " helyébe a következő rendelkezés lép") (u8 ", és") _ 154 187 _ (u8 " egészül ki") _ _ 32 95
    _ c68_title c68_named eq_refl (proj1 (c87_plain _)) eq_refl (c87_listed c68_act 95) _ _ (c68_under 153) _ _ _); [cbn; tauto|cbn; tauto|cbn; tauto|cbn; tauto|fills 3%nat|].
  refine (un_within _ _ _ _ _ _ (first_ends _) (first_ends _) _). split; [right|right; right];
    exists 3%nat; (split; [lia|]); [split; [constructor|]|split; [reflexivity|split; [discriminate|]]]; intros j J; (destruct j as [|[|[|j]]]; [reflexivity|reflexivity|reflexivity|lia]).
Qed.
Example C87_unique_ex : grammar_analyzer (c87_text c87_chapter) = Some (mk_analysis [mk_outgoing 2 6 (act_only (u8 "Ptk.")); mk_outgoing 20 41 (mk_ref (Some (u8 "Ptk.")) (RId (u8 "21")) RNone RNone RNone)]
    [BlockAmendment (ARef (mk_ref (Some (u8 "Ptk.")) (RId (u8 "21")) RNone RNone RNone)) true] []).
Proof. vm_compute. reflexivity. Qed.
Example C87_apart_ex : ~ (exists refs semantic abbrs, subtitled (c87_text c87_chapter) refs semantic abbrs) /\ exists refs semantic abbrs, subtitled c86_together refs semantic abbrs.
Proof.
  split; [intros (l & s & m & H); exact (C87_apart _ _ _ _ _ _ _ (c87_at _ _ (proj1 c87_places) eq_refl) (or_introl H))|]. do 3 eexists. exact (proj1 (proj2 C86_found_ex)).
Qed.
Example C87_lost_ex : c87_chapter <> c87_chapter' /\ grammar_analyzer (c87_text c87_chapter) = grammar_analyzer (c87_text c87_chapter').
Proof.
  split; [discriminate|]. refine (C87_lost (u8 "A") (u8 " ") (u8 "Ptk.") (u8 "Ptk.") [] _ c87_chapter c87_chapter' (u8 "21. §-sal") _ (u8 " egészül ki") _ c85_blank c85_short (proj1 c87_places) (proj1 (proj2 c87_places)) eq_refl (c87_inserted 19) _ _); [cbn; tauto|now apply untitled_check|cbn; tauto].
Qed.
Definition c87_titled' : pystr := u8 " „A haszon.” alcíme".
Example C87_lost_at_ex : c87_titled <> c87_titled' /\ grammar_analyzer (c87_replaced c87_titled) = grammar_analyzer (c87_replaced c87_titled').
Proof.
  split; [discriminate|]. refine (C87_lost_at (u8 "A") (u8 " ") (u8 "Ptk.") (u8 "Ptk.") [] _ c87_titled c87_titled' (u8 "3. § (1) bekezdése") _ (u8 " helyébe a következő rendelkezés lép") _ c85_blank c85_short (proj1 (c87_plain _)) _ eq_refl (or_intror (conj (c87_listed _ 26) _))); [cbn; tauto| |cbn; tauto].
  refine (pp_titled _ (u8 "A haszon.") (u8 " alcíme") _ _); [split; cbn; intuition discriminate|cbn; tauto].
Qed.
