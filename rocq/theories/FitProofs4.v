From Coq Require Import Lia.
From Verif Require Import PyBase PyBaseFacts IdModel IdSpec LineModel DateModel RefModel RefSpec TreeModel TreeSpec TreeProofs TreeProofs2 StructModel StructSpec StructPatterns StructProofs StructProofs2 StructProofs3 StructProofs5
  SemModel SemSpec SemProofs SemProofs4 SemProofs7 HtmlModel HtmlSpec HtmlProofs5 FitSpec FitProofs FitProofs2.
Local Open Scope Z_scope.

(** * Identifiers can be in ids *)

Definition small (c : N) : bool := ((97 <=? c) && (c <=? 122))%N.
Definition id_char (c : N) : Prop := c <> 95%N /\ c <> 45%N.
Definition few (i : pystr) : Prop := i <> [] /\ Forall id_char i /\ (length (List.filter small i) <= 3)%nat.
Lemma few_safe i : few i -> string_safe i.
Proof.
  intros (N & F & L). rewrite Forall_forall in F. assert (C : forall p, (3 < length (List.filter small p))%nat -> contains_sub p i = false).
  { intros p G. destruct (contains_sub p i) eqn:E; [|reflexivity]. apply contains_sub_spec in E as (a & b & ->). rewrite !filter_app, !app_length in L. lia. }
  split; [exact N|]. split; [intros I; now apply F in I as []|]. split; [intros I; now apply F in I as []|]. split; apply C; vm_compute; lia.
Qed.
Lemma digits_few d : ascii_digits d -> Forall id_char d /\ List.filter small d = [].
Proof.
  intros D. unfold ascii_digits in D. induction D as [|c d C D [IH1 IH2]]; [split; [constructor|reflexivity]|]. split.
  - constructor; [unfold id_char; lia|exact IH1].
  - cbn [List.filter]. replace (small c) with false; [exact IH2|]. symmetry. unfold small. destruct (97 <=? c)%N eqn:E; [apply N.leb_le in E; lia|reflexivity].
Qed.
Lemma few_digits d t : ascii_digits d -> d <> [] -> Forall id_char t -> (length (List.filter small t) <= 3)%nat -> few (d ++ t).
Proof.
  intros D N F L. destruct (digits_few d D) as [F1 F2]. split; [destruct d; [contradiction|discriminate]|]. split; [now apply Forall_app|]. rewrite filter_app, F2. exact L.
Qed.
Lemma length_filter {A} (f : A -> bool) l : (length (List.filter f l) <= length l)%nat.
Proof. induction l as [|x l IH]; cbn; [lia|]. destruct (f x); cbn; lia. Qed.
Lemma few_length t n : (length t <= n)%nat -> (length (List.filter small t) <= n)%nat.
Proof. pose proof (length_filter small t). lia. Qed.
Lemma numbered_few i n l : numbered i n l -> few i.
Proof.
  destruct 1 as [d D N|d c D N C|d c D N C].
  - rewrite <- (app_nil_r d). apply few_digits; auto.
  - apply few_digits; auto; [|apply few_length; cbn; lia]. constructor; [unfold small_letter, id_char in *; lia|constructor].
  - apply few_digits; auto; [|apply few_length; cbn; lia]. constructor; [unfold id_char; lia|]. constructor; [unfold small_letter, id_char in *; lia|constructor].
Qed.
Lemma article_number_few i : article_number i -> few i.
Proof.
  assert (P : forall d c, ascii_digits d -> d <> [] -> capital_letter c -> few (d ++ [47%N; c])).
  { intros d c D N C. apply few_digits; auto; [|apply few_length; cbn; lia]. constructor; [unfold id_char; lia|]. constructor; [unfold capital_letter, id_char in *; lia|constructor]. }
  induction 1 as [d D N|d c D N C|b i B N _ H (N' & F & L)]; auto; [rewrite <- (app_nil_r d); apply few_digits; auto|].
  apply few_digits; auto. constructor; [unfold id_char; lia|exact F].
Qed.
Definition letters_id (n : nat) (i : pystr) : Prop := i <> [] /\ Forall id_char i /\ (length i <= n)%nat.
Lemma alphabetic_letters p s i n : Forall id_char p -> (length p <= n)%nat -> (1 <= n)%nat -> match_alphabetic p s = Some i -> letters_id (S n) i.
Proof.
  intros F L N H. apply match_alphabetic_spec in H as [[(c & C & ->)|[->| ->]] _].
  - split; [destruct p; discriminate|]. split; [|rewrite app_length; cbn; lia]. apply Forall_app. split; [exact F|]. constructor; [unfold small_letter, id_char in *; lia|constructor].
  - split; [discriminate|]. split; [repeat constructor; discriminate|cbn; lia].
  - split; [discriminate|]. split; [repeat constructor; discriminate|cbn; lia].
Qed.
Lemma letters_few i : letters_id 3 i -> few i.
Proof. intros (N & F & L). split; [exact N|]. split; [exact F|]. now apply few_length. Qed.
Lemma letters_weaken n m i : letters_id n i -> (n <= m)%nat -> letters_id m i.
Proof. intros (N & F & L) M. repeat split; auto. lia. Qed.
Definition safe_id (i : option pystr) : Prop := forall x, i = Some x -> string_safe x.
Lemma parse_act_safe i d s ls a : parse_act i d s ls = Ok a -> forall x, In x (act_articles a) -> forall c, inside_article (ChSae c) x -> s_kind c <> KBlockAmendmentContainer -> safe_id (s_identifier c).
Proof.
  intros E x I c C K. assert (R : Forall (raw_act_child any_line safe_id any_struct) (act_children a)).
  { eapply parse_act_raw; [exact any_slice| | | | | | | |exact E].
    - anything.
    - discriminate.
    - intros y j M z [= <-]. apply match_numeric_spec in M as (n & l & t & M & _). exact (few_safe _ (numbered_few _ _ _ M)).
    - intros y j M z [= <-]. apply match_paragraph_spec in M as (n & l & t & M & _). exact (few_safe _ (numbered_few _ _ _ M)).
    - intros y j M z [= <-]. apply (alphabetic_letters _ _ _ 1) in M; [|constructor|cbn; lia|lia]. apply few_safe, letters_few. exact (letters_weaken _ 3 _ M ltac:(lia)).
    - intros y z j k M M' u [= <-]. apply (alphabetic_letters _ _ _ 1) in M as (_ & F & L); [|constructor|cbn; lia|lia].
      apply (alphabetic_letters _ _ _ 2) in M'; [|exact F|exact L|lia]. now apply few_safe, letters_few.
    - apply Forall_forall. intros l _. exact Logic.I. }
  rewrite Forall_forall in R. unfold act_articles in I. apply in_flat_map in I as ([e|y] & Iy & I); cbn in I; [destruct I|]. destruct I as [->|[]].
  destruct (R _ Iy) as (_ & _ & X). specialize (X (ChSae c)). cbn [act_child_child] in X. specialize (X (inside_of_article _ _ C)). cbn [okc] in X. destruct X as (_ & _ & X). auto.
Qed.

(** * Different elements have different identifiers *)

Definition named (cs : list child) : list pystr := flat_map (fun c => match child_identifier c with Some i => [i] | None => [] end) cs.
Definition alone (s : sae) : Prop := forall cs, s_children s = Some cs -> NoDup (named cs).
Definition para_ok (p : sae) : Prop :=
  distinct_children p /\ Forall distinct_children (elements_in p) /\ alone p /\
  (forall cs c, s_children p = Some cs -> In (ChSae c) cs -> s_kind c = KNumericPoint \/ s_kind c = KAlphabeticPoint -> alone c).
Definition article_ok (x : article) : Prop := NoDup (map s_identifier (a_paragraphs x)) /\ Forall para_ok (a_paragraphs x).
Lemma alone_unique s : alone s -> unique_children s.
Proof.
  intros A cs E c d I J Eq N. specialize (A cs E). clear E. induction cs as [|e cs IH]; [destruct I|]. unfold named in A. cbn [flat_map] in A.
  assert (X : forall y, In y cs -> child_identifier e = child_identifier y -> child_identifier e <> None -> False).
  { intros y Iy Ey Ny. destruct (child_identifier e) as [i|] eqn:Ei; [|congruence]. cbn [app] in A. apply NoDup_cons_iff in A as [A _]. apply A. apply in_flat_map. exists y. split; [exact Iy|]. rewrite <- Ey. now left. }
  destruct I as [<-|I], J as [<-|J]; [reflexivity|exfalso; eapply X; eauto|exfalso; eapply X; [exact I|auto|congruence]|].
  apply IH; auto. destruct (child_identifier e); [|exact A]. cbn [app] in A. now apply NoDup_cons_iff in A as [_ A].
Qed.
Lemma NoDup_map_inj {A B} (f : A -> B) l x y : NoDup (map f l) -> In x l -> In y l -> f x = f y -> x = y.
Proof.
  induction l as [|z l IH]; intros N I J E; [destruct I|]. cbn [map] in N. apply NoDup_cons_iff in N as [N1 N2].
  destruct I as [<-|I], J as [<-|J]; auto; exfalso; apply N1; apply in_map_iff; eauto.
Qed.
Lemma ok_distinct a : NoDup (map a_identifier (act_articles a)) -> Forall article_ok (act_articles a) -> distinct_act a /\ unique_identifiers a.
Proof.
  intros N F. split.
  - split; [exact N|]. eapply Forall_impl; [|exact F]. intros x [N' P]. split; [exact N'|]. eapply Forall_impl; [|exact P]. intros p (D1 & D2 & _). auto.
  - assert (A : forall x, In (AArticle x) (act_children a) -> In x (act_articles a)) by (intros x I; apply in_flat_map; exists (AArticle x); cbn; auto).
    rewrite Forall_forall in F. assert (G : forall x p, In (AArticle x) (act_children a) -> In p (a_paragraphs x) -> para_ok p).
    { intros x p I J. destruct (F x (A x I)) as [_ G]. rewrite Forall_forall in G. auto. }
    constructor.
    + intros x y I J. exact (NoDup_map_inj _ _ x y N (A x I) (A y J)).
    + intros x p q I J K. destruct (F x (A x I)) as [G1 _]. exact (NoDup_map_inj _ _ p q G1 J K).
    + intros x p I J. apply alone_unique. now apply (G x p).
    + intros x p cs c I J C K M. apply alone_unique. destruct (G x p I J) as (_ & _ & _ & G1). eauto.
Qed.

Lemma elements_in_inside s c : In c (elements_in s) -> inside_sae (ChSae c) s /\ s_kind c <> KBlockAmendmentContainer.
Proof.
  unfold elements_in. destruct (s_children s) as [cs|] eqn:C; [|intros []]. intros I. apply in_flat_map in I as (d & J & I). destruct d as [x| | |]; try contradiction.
  destruct (s_kind x) eqn:K; cbn in I; try contradiction; destruct I as [<-|[]]; (split; [now econstructor 1; eauto|rewrite K; discriminate]).
Qed.
Lemma filter_elements es : (forall e, In e es -> s_kind e <> KBlockAmendmentContainer) ->
  flat_map (fun c => match c with ChSae x => match s_kind x with KBlockAmendmentContainer => [] | _ => [x] end | _ => [] end) (map ChSae es) = es.
Proof.
  induction es as [|e es IH]; intros H; [reflexivity|]. cbn [map flat_map]. rewrite IH by (intros; apply H; now right).
  specialize (H e (or_introl eq_refl)). destruct (s_kind e); cbn; congruence.
Qed.
Lemma filter_quoted bs : flat_map (fun c => match c with ChSae x => match s_kind x with KBlockAmendmentContainer => [] | _ => [x] end | _ => [] end) (map ChQuoted bs) = [].
Proof. induction bs; auto. Qed.
Lemma numbered_named k i es : numbered_from k i es -> Forall (fun e => s_kind e = k /\ s_identifier e <> None) es.
Proof. induction 1 as [i e K I|i j e es K I F H IH]; constructor; auto; split; congruence. Qed.
Lemma well_numbered_ok s : well_numbered s -> distinct_children s /\ alone s.
Proof.
  intros W. unfold distinct_children, elements_in, alone. destruct (s_children s) as [cs|] eqn:C.
  - destruct (W cs C) as [(bs & ->)|(ck & first & es & -> & L & N & D & _)].
    + rewrite filter_quoted. split; [split; constructor|]. intros ? [= <-]. replace (named _) with (@nil pystr); [constructor|]. clear. induction bs; auto.
    + pose proof (numbered_named _ _ _ N) as M. rewrite Forall_forall in M. rewrite filter_elements by (intros e I E; destruct (M e I) as [K _]; inversion L; congruence).
      split; [split; [exact D|apply Forall_forall; intros e I; now apply M]|]. intros ? [= <-]. unfold named. clear - D. induction es as [|e es IH]; cbn; [constructor|].
      cbn [map] in D. apply NoDup_cons_iff in D as [D1 D2]. destruct (s_identifier e) as [i|] eqn:E; cbn [app]; [|now apply IH]. constructor; [|now apply IH].
      intros I. apply D1. apply in_flat_map in I as (c & Ic & I). apply in_map_iff in Ic as (x & <- & Ix). cbn in I. apply in_map_iff. exists x. split; [|exact Ix].
      destruct (s_identifier x); [destruct I as [->|[]]; reflexivity|destruct I].
  - split; [split; constructor|]. intros ? [= ].
Qed.
Lemma article_in_ok ls x : article_in ls x -> article_ok x /\ string_safe (a_identifier x).
Proof.
  intros H. inversion H as [? l1 ? i sp title rest blanks body ps N SP C T R FB LB P]; subst. cbn [a_identifier]. split; [|exact (few_safe _ (article_number_few _ N))].
  assert (X : Forall (fun p => well_numbered p /\ forall x, inside_sae (ChSae x) p -> well_numbered x) ps /\ NoDup (map s_identifier ps)).
  { destruct P as [b p E I|b ps E].
    - split; [constructor; [|constructor]; now apply elements_numbering in E|]. cbn. constructor; [intros []|constructor].
    - destruct elements_numbering as (_ & _ & EN). destruct (EN _ _ _ _ _ E) as [NF WF]. split; [exact WF|]. eapply numbered_nodup, NF. }
  destruct X as [X D]. split; [exact D|]. cbn [a_paragraphs]. eapply Forall_impl; [|exact X]. intros p [W Wi]. destruct (well_numbered_ok p W) as [A B].
  split; [exact A|]. split; [|split; [exact B|]].
  - apply Forall_forall. intros c I. apply elements_in_inside in I as [I _]. exact (proj1 (well_numbered_ok c (Wi c I))).
  - intros cs c C' I _. apply well_numbered_ok, Wi. econstructor 1; eauto.
Qed.

(** * Ids *)

Definition parts_ok (r : reference) : Prop := Forall part_safe (tl (components r)).
Lemma place_ok r s : parts_ok r -> safe_id (s_identifier s) -> parts_ok (place r s).
Proof.
  unfold parts_ok, place, components. cbn [tl]. intros P Q. destruct (s_identifier s) as [i|]; [|exact P]. specialize (Q i eq_refl). cbn in P.
  repeat match goal with H : Forall _ (_ :: _) |- _ => apply Forall_cons_iff in H as [? H] end. destruct (s_kind s); cbn [r_article r_paragraph r_point r_subpoint]; repeat (constructor; auto); exact Logic.I.
Qed.
Lemma nodes_ok p : s_kind p <> KBlockAmendmentContainer -> forall r, parts_ok r -> (forall c, c = p \/ inside_sae (ChSae c) p -> s_kind c <> KBlockAmendmentContainer -> safe_id (s_identifier c)) ->
  Forall (fun rs => parts_ok (fst rs)) (nodes true r p).
Proof.
  induction p as [p IH] using sae_induct. intros K r R Q. rewrite nodes_elements by exact K. constructor; [apply place_ok; auto|].
  apply Forall_forall. intros rs I. apply in_flat_map in I as (c & Ic & I). destruct (elements_in_inside _ _ Ic) as [J Kc].
  assert (Cc : exists cs, s_children p = Some cs /\ In (ChSae c) cs).
  { unfold elements_in in Ic. destruct (s_children p) as [cs|]; [|destruct Ic]. exists cs. split; [reflexivity|]. apply in_flat_map in Ic as (d & Id & Ic). destruct d as [x| | |]; try contradiction.
    destruct (s_kind x) eqn:Kx; cbn in Ic; try contradiction; destruct Ic as [<-|[]]; exact Id. }
  destruct Cc as (cs & C & Ics). assert (F : Forall (fun rs => parts_ok (fst rs)) (nodes true (place r p) c)).
  { eapply IH; eauto; [apply place_ok; auto|]. intros d D Kd. apply Q; [|exact Kd]. right. destruct D as [->|D]; [exact J|]. econstructor 2; [exact C|exact Ics|now constructor]. }
  rewrite Forall_forall in F. auto.
Qed.
Lemma article_safe x : string_safe (a_identifier x) -> paragraphs_only x -> (forall c, inside_article (ChSae c) x -> s_kind c <> KBlockAmendmentContainer -> safe_id (s_identifier c)) ->
  Forall (fun rl => Forall part_safe (tl (components (fst rl)))) (article_ids x).
Proof.
  intros S P Q. unfold article_ids. set (r := mk_ref None (RId (a_identifier x)) RNone RNone RNone). assert (R : parts_ok r) by (repeat constructor; apply S).
  constructor; [exact R|]. apply Forall_map. cbn [fst]. apply Forall_forall. intros rs I. apply in_flat_map in I as (p & Ip & I). unfold paragraphs_only in P. rewrite Forall_forall in P.
  assert (F : Forall (fun rs => parts_ok (fst rs)) (nodes true r p)).
  { apply nodes_ok; [rewrite (P p Ip); discriminate|exact R|]. intros c [->|C] K; apply Q; auto; [now constructor|econstructor 2; eauto]. }
  rewrite Forall_forall in F. exact (F rs I).
Qed.

Definition identified (a : act) : Prop := Forall article_ok (act_articles a) /\ safe_ids a.
Lemma parse_act_identified i d s ls a : Forall fine ls -> parse_act i d s ls = Ok a -> identified a.
Proof.
  intros F E. destruct (act_written _ _ _ _ _ F E) as (pre & body & _ & _ & B & _).
  assert (A : forall x, In x (act_articles a) -> article_ok x /\ string_safe (a_identifier x)).
  { intros x I. unfold act_articles in I. apply in_flat_map in I as ([e|y] & Iy & I); cbn in I; [destruct I|]. destruct I as [->|[]].
    destruct (body_in_groups _ _ _ _ B _ Iy) as (before & l & group & after & _ & _ & _ & X). exact (article_in_ok _ _ X). }
  split; [apply Forall_forall; intros x I; now apply A|]. unfold safe_ids, act_ids. apply Forall_forall. intros rl I. apply in_flat_map in I as (x & Ix & I).
  pose proof (parse_act_safe _ _ _ _ _ E x Ix) as Q. pose proof (parse_act_fresh _ _ _ _ _ E) as [_ P _ _].
  assert (Px : paragraphs_only x). { apply P. unfold act_articles in Ix. apply in_flat_map in Ix as ([e|y] & Iy & J); cbn in J; [destruct J|]. destruct J as [->|[]]. exists x. auto. }
  pose proof (article_safe x (proj2 (A x Ix)) Px Q) as G. rewrite Forall_forall in G. auto.
Qed.

(** * Block amendments and semantic data leave the identifiers *)

(* the same element, or one with the same identifier, where both have no elements in them *)
Definition outline (r : reference) (p : sae) : list (reference * pystr) := map (fun rs => (fst rs, label (s_kind (snd rs)) (s_identifier (snd rs)))) (nodes true r p).
Lemma place_same r p q : s_kind q = s_kind p -> s_identifier q = s_identifier p -> place r q = place r p.
Proof. unfold place. intros -> ->. reflexivity. Qed.
Lemma block_amendment_kind r ci co ls b : parse_block_amendment r ci co ls = Ok b -> s_kind b = KBlockAmendmentContainer /\ s_identifier b = None.
Proof.
  unfold parse_block_amendment. destruct (children <- _ ;; _) as [x|] eqn:E; [|discriminate]. intros [= ->]. apply bind_ok in E as (cs & _ & E). apply new_sae_ok in E as [-> _]. auto.
Qed.
Lemma block_paragraph_keeps an p q : s_kind p <> KBlockAmendmentContainer -> block_parse_paragraph an p = Ok q ->
  s_identifier q = s_identifier p /\ (para_ok p -> para_ok q) /\ forall r, outline r q = outline r p.
Proof.
  intros K H. apply block_paragraph_inv in H as [->|(lines & intro & actual & context & outro & position & b & C & _ & _ & B & ->)]; [auto|].
  apply block_amendment_kind in B as [Kb Ib]. set (q := mk_sae _ _ _ _ _ _ _).
  assert (Eq : elements_in q = []) by (unfold elements_in, q; cbn; rewrite Kb; reflexivity). assert (Ep : elements_in p = []) by (unfold elements_in; rewrite C; reflexivity).
  split; [reflexivity|]. split.
  - intros _. split; [unfold distinct_children; rewrite Eq; split; constructor|]. split; [rewrite Eq; constructor|]. split.
    + intros cs [= <-]. unfold named. cbn. rewrite Ib. constructor.
    + intros cs c [= <-] [[= <-]|[]]. rewrite Kb. intros [X|X]; discriminate.
  - intros r. unfold outline. rewrite (nodes_elements r q), (nodes_elements r p), Eq, Ep by exact K. reflexivity.
Qed.
Lemma can_parse_kind k : can_be_semantic_parsed k = true <-> k <> KBlockAmendmentContainer.
Proof. destruct k; cbn; split; congruence. Qed.
Lemma bare_elements p q : bare p = bare q -> s_kind q <> KBlockAmendmentContainer -> map bare (elements_in p) = map bare (elements_in q).
Proof.
  intros E K. apply can_parse_kind in K. destruct (bare_children p q E K) as (_ & _ & _ & _ & _ & C). unfold elements_in.
  destruct (s_children p) as [l|], (s_children q) as [l'|]; try contradiction; [|reflexivity]. revert l' C. induction l as [|c l IH]; intros [|d l'] C; try discriminate; [reflexivity|].
  cbn [map flat_map] in *. injection C as C1 C2. rewrite !map_app, (IH _ C2). f_equal. destruct c as [x| | |], d as [y| | |]; cbn in C1; try discriminate C1; try reflexivity.
  injection C1 as C1. assert (Ek : s_kind x = s_kind y) by (rewrite <- (bare_kind x), C1; apply bare_kind). rewrite <- Ek. destruct (s_kind x); cbn; congruence.
Qed.
Lemma bare_ids l l' : map bare l = map bare l' -> map s_identifier l = map s_identifier l'.
Proof. intros E. rewrite <- (map_ext _ _ bare_identifier l), <- (map_ext _ _ bare_identifier l'), <- !(map_map bare s_identifier), E. reflexivity. Qed.
Lemma bare_distinct p q : bare p = bare q -> s_kind q <> KBlockAmendmentContainer -> distinct_children p -> distinct_children q.
Proof.
  intros E K [D N]. apply bare_elements, bare_ids in E; [|exact K]. split; [now rewrite <- E|]. apply Forall_map with (f := s_identifier) (P := fun i => i <> None). rewrite <- E. now apply Forall_map.
Qed.
Lemma child_identifier_bare c : child_identifier (bare_ch c) = child_identifier c.
Proof. destruct c; cbn; rewrite ?bare_identifier; reflexivity. Qed.
Lemma bare_named l l' : map bare_ch l = map bare_ch l' -> named l = named l'.
Proof.
  revert l'. induction l as [|c l IH]; intros [|d l'] E; try discriminate; [reflexivity|]. cbn [map] in E. injection E as E1 E2. unfold named in *. cbn [flat_map].
  rewrite (IH _ E2), <- (child_identifier_bare c), E1, child_identifier_bare. reflexivity.
Qed.
Lemma bare_alone p q : bare p = bare q -> s_kind q <> KBlockAmendmentContainer -> alone p -> alone q.
Proof.
  intros E K A cs C. apply can_parse_kind in K. destruct (bare_children p q E K) as (_ & _ & _ & _ & _ & X). rewrite C in X. destruct (s_children p) as [l|] eqn:Cp; [|contradiction].
  rewrite <- (bare_named _ _ X). now apply A.
Qed.
Lemma bare_para_ok p q : bare p = bare q -> s_kind q <> KBlockAmendmentContainer -> para_ok p -> para_ok q.
Proof.
  intros E K (D & F & A & G). split; [exact (bare_distinct p q E K D)|]. split; [|split; [exact (bare_alone p q E K A)|]].
  - apply Forall_forall. intros c I. pose proof (bare_elements p q E K) as X. destruct (map_eq_in _ _ _ _ _ X I) as (d & J & Ed). rewrite Forall_forall in F.
    apply (bare_distinct d c Ed); [|auto]. exact (proj2 (elements_in_inside _ _ I)).
  - intros cs c C I Kc. pose proof K as K'. apply can_parse_kind in K'. destruct (bare_children p q E K') as (_ & _ & _ & _ & _ & X). rewrite C in X. destruct (s_children p) as [l|] eqn:Cp; [|contradiction].
    destruct (map_eq_in _ _ _ _ _ X I) as (d & J & Ed). destruct d as [y| | |]; try discriminate Ed. cbn in Ed. injection Ed as Ed.
    assert (Ek : s_kind y = s_kind c) by (rewrite <- (bare_kind y), Ed; apply bare_kind). apply (bare_alone y c Ed); [destruct Kc as [-> | ->]; discriminate|]. eapply G; eauto. now rewrite Ek.
Qed.
Lemma map_flat_map {A B C} (g : B -> C) (f : A -> list B) l : map g (flat_map f l) = flat_map (fun x => map g (f x)) l.
Proof. induction l as [|x l IH]; cbn; [reflexivity|]. now rewrite map_app, IH. Qed.
Lemma bare_outline p : forall q r, bare p = bare q -> s_kind q <> KBlockAmendmentContainer -> outline r q = outline r p.
Proof.
  induction p as [p IH] using sae_induct. intros q r E K. assert (Ek : s_kind p = s_kind q) by (rewrite <- (bare_kind p), E; apply bare_kind).
  assert (Ei : s_identifier p = s_identifier q) by (rewrite <- (bare_identifier p), E; apply bare_identifier). unfold outline.
  rewrite (nodes_elements r q), (nodes_elements r p) by congruence. cbn [map fst snd]. rewrite Ek, Ei, (place_same r p q) by auto. f_equal.
  rewrite !map_flat_map. pose proof (bare_elements p q E K) as X.
  assert (Y : forall c, In c (elements_in p) -> forall d r, bare c = bare d -> s_kind d <> KBlockAmendmentContainer -> outline r d = outline r c).
  { intros c I. unfold elements_in in I. destruct (s_children p) as [cs|] eqn:C; [|destruct I]. apply in_flat_map in I as (d & Id & I). destruct d as [x| | |]; try contradiction.
    assert (c = x) as -> by (destruct (s_kind x); cbn in I; try contradiction; now destruct I as [<-|[]]). exact (IH cs x eq_refl Id). }
  assert (Z : forall c, In c (elements_in q) -> s_kind c <> KBlockAmendmentContainer) by (intros c I; exact (proj2 (elements_in_inside _ _ I))).
  revert X Y Z. generalize (elements_in p) (elements_in q). intros l. induction l as [|c l IHl]; intros [|d l'] X Y Z; try discriminate; [reflexivity|].
  cbn [map flat_map] in *. injection X as X1 X2. rewrite (IHl l' X2 (fun c' I' => Y c' (or_intror I')) (fun c' I' => Z c' (or_intror I'))). f_equal.
  exact (Y c (or_introl eq_refl) d _ X1 (Z d (or_introl eq_refl))).
Qed.

Definition article_outline (x : article) : list (reference * pystr) := article_ids x.
Lemma article_ids_outline x : article_ids x =
  (mk_ref None (RId (a_identifier x)) RNone RNone RNone, a_identifier x ++ u8 ". §") :: flat_map (outline (mk_ref None (RId (a_identifier x)) RNone RNone RNone)) (a_paragraphs x).
Proof. unfold article_ids, outline. now rewrite map_flat_map. Qed.
(* the articles one by one *)
Definition kept_article (x y : article) : Prop := a_identifier y = a_identifier x /\ article_ids y = article_ids x /\ (article_ok x -> article_ok y).
Lemma kept_articles l l' : Forall2 kept_article l l' ->
  map a_identifier l' = map a_identifier l /\ flat_map article_ids l' = flat_map article_ids l /\ (Forall article_ok l -> Forall article_ok l').
Proof.
  induction 1 as [|x y l l' (E1 & E2 & O) F (I1 & I2 & I3)]; [auto|]. cbn [map flat_map]. split; [congruence|]. split; [congruence|]. intros G. apply Forall_cons_iff in G as [G1 G2]. constructor; auto.
Qed.
Lemma kept_identified a b : Forall2 kept_article (act_articles a) (act_articles b) -> identified a ->
  identified b /\ map a_identifier (act_articles b) = map a_identifier (act_articles a) /\ act_ids b = act_ids a.
Proof.
  intros F [O S]. destruct (kept_articles _ _ F) as (E1 & E2 & E3). split; [|split; [exact E1|exact E2]]. split; [auto|]. unfold safe_ids in *. unfold act_ids in *. now rewrite E2.
Qed.
Lemma mapM_forall2 {A B} (f : A -> res B) l : forall r, mapM f l = Ok r -> Forall2 (fun x y => f x = Ok y) l r.
Proof.
  induction l as [|x l IH]; intros r E; cbn [mapM] in E; [injection E as <-; constructor|]. apply bind_ok in E as (y & Ey & E). apply bind_ok in E as (t & Et & E). injection E as <-. constructor; auto.
Qed.
Lemma block_article_kept an x y : paragraphs_only x -> block_parse_article an x = Ok y -> kept_article x y.
Proof.
  intros P E. unfold block_parse_article in E. apply bind_ok in E as (ps & E1 & E). apply mapM_forall2 in E1. 
  assert (y = mk_article (a_identifier x) (a_title x) ps) as ->.
  { unfold new_article in E. repeat (match type of E with bind _ _ = Ok _ => let z := fresh in let H := fresh in apply bind_ok in E as (z & H & E) | (if ?b then _ else _) = Ok _ => destruct b; try discriminate E end). injection E as <-. reflexivity. }
  assert (X : map s_identifier ps = map s_identifier (a_paragraphs x) /\ (Forall para_ok (a_paragraphs x) -> Forall para_ok ps) /\
    forall r, flat_map (outline r) ps = flat_map (outline r) (a_paragraphs x)).
  { clear E. unfold paragraphs_only in P. induction E1 as [|p q l l' Q F IH]; [auto|]. apply Forall_cons_iff in P as [P1 P2]. destruct (IH P2) as (I1 & I2 & I3).
    destruct (block_paragraph_keeps an p q) as (Q1 & Q2 & Q3); [rewrite P1; discriminate|exact Q|]. cbn [map flat_map]. split; [congruence|]. split; [|intros r; now rewrite Q3, I3].
    intros G. apply Forall_cons_iff in G as [G1 G2]. constructor; auto. }
  destruct X as (X1 & X2 & X3). split; [reflexivity|]. split; [rewrite !article_ids_outline; cbn [a_identifier a_paragraphs]; now rewrite X3|].
  intros [O1 O2]. split; cbn [a_paragraphs]; [now rewrite X1|auto].
Qed.
Lemma block_act_kept an a b : fresh_act a -> block_parse_act an a = Ok b -> Forall2 kept_article (act_articles a) (act_articles b).
Proof.
  intros [_ P _ _] E. unfold block_parse_act in E. apply bind_ok in E as (cs & E1 & E). injection E as <-. unfold act_articles. cbn [act_children evolve_act].
  assert (Q : forall x, In (AArticle x) (act_children a) -> paragraphs_only x) by (intros x I; apply P; exists x; auto). apply mapM_forall2 in E1.
  clear P. induction E1 as [|c d l l' H F IH]; [constructor|]. cbn [flat_map]. destruct c as [e|x].
  - injection H as <-. apply IH. intros x I. apply Q. now right.
  - apply bind_ok in H as (y & Hy & H). injection H as <-. cbn [app]. constructor; [|apply IH; intros z I; apply Q; now right]. exact (block_article_kept an x y (Q x (or_introl eq_refl)) Hy).
Qed.
Lemma bare_article_kept x y : paragraphs_only x -> bare_article y = bare_article x -> kept_article x y.
Proof.
  intros P E. unfold bare_article in E. injection E as E1 E2 E3.
  assert (X : map s_identifier (a_paragraphs y) = map s_identifier (a_paragraphs x) /\ (Forall para_ok (a_paragraphs x) -> Forall para_ok (a_paragraphs y)) /\
    forall r, flat_map (outline r) (a_paragraphs y) = flat_map (outline r) (a_paragraphs x)).
  { unfold paragraphs_only in P. revert P E3. generalize (a_paragraphs y). induction (a_paragraphs x) as [|p l IH]; intros [|q l'] P E; try discriminate; [auto|]. cbn [map] in E. injection E as E E'.
    apply Forall_cons_iff in P as [P1 P2]. destruct (IH l' P2 E') as (I1 & I2 & I3). assert (K : s_kind q <> KBlockAmendmentContainer) by (rewrite <- (bare_kind q), E, bare_kind, P1; discriminate).
    cbn [map flat_map]. split; [rewrite I1; f_equal; now rewrite <- (bare_identifier q), E, bare_identifier|]. split.
    - intros G. apply Forall_cons_iff in G as [G1 G2]. constructor; [exact (bare_para_ok p q (eq_sym E) K G1)|auto].
    - intros r. now rewrite (bare_outline p q r (eq_sym E) K), I3. }
  destruct X as (X1 & X2 & X3). split; [exact E1|]. split; [rewrite !article_ids_outline, E1; now rewrite X3|]. intros [O1 O2]. split; [now rewrite X1|auto].
Qed.
Lemma semantic_act_kept an b c : fresh_act b -> add_semantics_to_act an b = Ok c -> Forall2 kept_article (act_articles b) (act_articles c).
Proof.
  intros [_ P _ _] E. apply act_keeps in E. unfold bare_act in E. injection E as _ _ _ _ E. unfold act_articles.
  assert (Q : forall x, In (AArticle x) (act_children b) -> paragraphs_only x) by (intros x I; apply P; exists x; auto). clear P.
  revert E Q. generalize (act_children c). induction (act_children b) as [|d l IH]; intros [|e l'] E Q; try discriminate; [constructor|]. cbn [map] in E. injection E as E E'. cbn [flat_map].
  specialize (IH l' E' (fun x I => Q x (or_intror I))). destruct d as [s|x], e as [t|y]; cbn in E; try discriminate E; [exact IH|]. cbn [app]. constructor; [|exact IH].
  apply bare_article_kept; [apply Q; now left|congruence].
Qed.
