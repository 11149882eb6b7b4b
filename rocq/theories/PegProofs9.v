From Coq Require Import Lia.
From Coq Require Import ZifyBool ZifyNat ZifyN.
From Verif Require Import Unicode PyBase PyBaseFacts NumModel IdModel DateModel DateSpec DateProofs RefModel RefSpec StructModel StructSpec StructProofs3 TreeModel SemModel SemProofs6 GramModel GramSpec GramProofs GramProofs2 GramProofs3 PegModel PegSpec PegProofs PegProofs2 PegProofs3 PegProofs4 PegProofs5 PegProofs6 PegProofs7 PegProofs8 PegProofs12.
Local Open Scope Z_scope.

Section Text.
Variable T : pystr.
Definition part_grounded (k : nat) (p : rpart) : Prop := forall i, In i (ids_of p) -> id_shape k i /\ written T i.
Lemma grounded_parts r : grounded T r <-> ((forall a, r_act r = Some a -> act_named T a) /\ part_grounded 1 (r_article r) /\ part_grounded 2 (r_paragraph r) /\
  part_grounded 3 (r_point r) /\ part_grounded 4 (r_subpoint r)).
Proof.
  unfold grounded, part_grounded, nth_part. destruct r as [a p1 p2 p3 p4]. split.
  - intros [A P]. refine (conj A (conj _ (conj _ (conj _ _)))); intros i I; [apply (P 1%nat)|apply (P 2%nat)|apply (P 3%nat)|apply (P 4%nat)]; auto.
  - intros (A & P1 & P2 & P3 & P4). split; [exact A|]. intros k i K I. destruct k as [|[|[|[|[|k]]]]]; [lia|auto..|]. cbn in I. now destruct k.
Qed.
Lemma none_grounded k : part_grounded k RNone.
Proof. intros i []. Qed.
Lemma relative_grounded own last : grounded T own -> grounded T last -> grounded T (relative_to own last).
Proof.
  rewrite !grounded_parts. intros (A & P1 & P2 & P3 & P4) (B & Q1 & Q2 & Q3 & Q4). unfold relative_to. cbn [r_act r_article r_paragraph r_point r_subpoint].
  refine (conj _ (conj _ (conj _ (conj _ _)))); repeat match goal with |- context [if ?b then _ else _] => destruct b end; auto.
Qed.
Lemma without_grounded r : grounded T r -> grounded T (without_act r).
Proof. rewrite !grounded_parts. intros (A & P). split; [discriminate|exact P]. Qed.
Lemma act_only_grounded i : act_named T i -> grounded T (mk_ref (Some i) RNone RNone RNone RNone).
Proof. intros A. apply grounded_parts. split; [now intros a [= <-]|]. refine (conj _ (conj _ (conj _ _))); intros j []. Qed.
Lemma first_grounded r : grounded T r -> grounded T (first_in_range r).
Proof.
  rewrite !grounded_parts. intros (A & P1 & P2 & P3 & P4). split; [exact A|]. cbn.
  refine (conj _ (conj _ (conj _ _))); match goal with H : part_grounded ?k ?p |- part_grounded ?k (part_first ?p) => destruct p; try exact H; intros i [<-|[]]; apply H; now left end.
Qed.
Lemma last_grounded r : grounded T r -> grounded T (last_in_range r).
Proof.
  rewrite !grounded_parts. intros (A & P1 & P2 & P3 & P4). split; [exact A|]. cbn.
  refine (conj _ (conj _ (conj _ _))); match goal with H : part_grounded ?k ?p |- part_grounded ?k (part_last ?p) => destruct p; try exact H; intros i [<-|[]]; apply H; right; now left end.
Qed.
Lemma range_part_grounded k a b c : part_grounded k a -> part_grounded k b -> make_range_part a b = Ok c -> part_grounded k c.
Proof.
  intros A B H. destruct a as [|a|a a'], b as [|b|b b']; try discriminate; [injection H as <-; apply none_grounded|].
  cbn in H. destruct (str_eqb a b); [injection H as <-; exact A|]. apply bind_ok in H as (l & _ & H). destruct l; [|discriminate]. injection H as <-.
  intros i [<-|[<-|[]]]; [apply A|apply B]; now left.
Qed.
Lemma range_grounded a b c : grounded T a -> grounded T b -> make_range a b = Ok c -> grounded T c.
Proof.
  rewrite !grounded_parts. intros (A & P1 & P2 & P3 & P4) (B & Q1 & Q2 & Q3 & Q4) H. unfold make_range in H.
  apply bind_ok in H as (r1 & R1 & H). apply bind_ok in H as (r2 & R2 & H). apply bind_ok in H as (r3 & R3 & H). apply bind_ok in H as (r4 & R4 & H). injection H as <-.
  split; [|cbn; refine (conj _ (conj _ (conj _ _))); (eapply range_part_grounded; [| |eassumption]; assumption)]. cbn [r_act]. unfold opt_str_or. destruct (r_act a) as [[|c w]|]; auto.
Qed.

Definition good (o : outgoing_reference) : Prop := piece T (or_start o) (or_end o) /\ grounded T (or_reference o).
Lemma single_good act r l : opt_fine (act_named T) act -> fine_reference T r -> convert_single_in_text_reference act r = Ok l -> Forall good l.
Proof.
  intros N [S E L La R] H. apply convert_single_collects in H as (c & A & ->).
  pose proof (additions_real r) as Re.
  assert (SE : Forall (fun x => starts_at T (ad_start x) /\ ends_at T (ad_end x)) (additions_of r)) by (revert R; apply Forall_impl; unfold well_read; tauto).
  pose proof (collector_good (starts_at T) (ends_at T) act _ c _ _ Re A S E L La SE) as G.
  apply Forall_forall. intros o Ho. rewrite Forall_forall in G. destruct (G o Ho) as (G1 & G2 & G3 & _). split; [now apply piece_of|].
  destruct (collector_sound act _ c _ _ Re A o Ho) as [C1 C2]. split; [rewrite C1; exact N|]. intros k i K I. rewrite Forall_forall in R.
  destruct (C2 k K) as [C|[(x & X & Lv & C)|(l1 & x & z & a & b & l2 & X & F & Lv & D1 & D2 & C)]]; rewrite C in I.
  - destruct I.
  - destruct (R x X) as (_ & _ & W). rewrite Lv in W. now apply W.
  - assert (X1 : In x (additions_of r)) by (rewrite X, in_app_iff; right; now left). assert (X2 : In z (additions_of r)) by (rewrite X, in_app_iff; right; right; now left).
    destruct (R x X1) as (_ & _ & W1). destruct (R z X2) as (_ & _ & W2). destruct F as [F _]. rewrite <- F in W2. rewrite Lv in W1, W2.
    destruct I as [<-|[<-|[]]]; [apply W1; rewrite D1; now left|apply W2; rewrite D2; now left].
Qed.
Lemma mapM_Forall_in {A B} (P : B -> Prop) (f : A -> res B) l : (forall x, In x l -> forall y, f x = Ok y -> P y) -> forall out, mapM f l = Ok out -> Forall P out.
Proof.
  induction l as [|x l IH]; intros F out H; cbn [mapM] in H; [injection H as <-; constructor|].
  apply bind_ok in H as (y & Y & H). apply bind_ok in H as (r & R & H). injection H as <-. constructor; [apply (F x (or_introl eq_refl)); exact Y|]. apply IH; [|exact R]. intros z Z. apply F. now right.
Qed.
Lemma none_fine {A} (P : A -> Prop) : opt_fine P None.
Proof. intros x. discriminate. Qed.
Lemma some_fine {A} (P : A -> Prop) x : P x -> opt_fine P (Some x).
Proof. now intros H y [= <-]. Qed.
Lemma flat_good act refs l : opt_fine (act_named T) act -> Forall (fine_reference T) refs -> flat_mapM (convert_single_in_text_reference act) refs = Ok l -> Forall good l.
Proof. intros N F H. eapply flat_mapM_Forall; [exact H|]. intros x y Hx. rewrite Forall_forall in F. apply single_good; auto. Qed.
Lemma chain_good l : forall last l' final, grounded T last -> Forall good l -> relative_chain last l = (l', final) -> Forall good l'.
Proof.
  induction l as [|o l IH]; intros last l' final G F H; cbn [relative_chain] in H; [injection H as <- _; constructor|].
  destruct (relative_chain (relative_to (or_reference o) last) l) as [rest fin] eqn:E. injection H as <- _. apply Forall_cons_iff in F as [[F1 F2] F].
  pose proof (relative_grounded _ _ F2 G) as R. constructor; [split; [exact F1|exact R]|]. eapply IH; eauto.
Qed.
Lemma multiple_good act refs l : opt_fine (act_named T) act -> Forall (fine_reference T) refs -> convert_multiple_in_text_references act refs = Ok l -> Forall good l.
Proof.
  intros N F H. apply multiple_chain in H as (own & fin & H & C). apply flat_good in H; [|apply none_fine|exact F]. eapply chain_good; [|exact H|exact C].
  apply grounded_parts. split; [exact N|]. refine (conj _ (conj _ (conj _ _))); intros j [].
Qed.
Lemma act_good a x o : fine_act T a -> get_act_id a = Ok x -> act_outgoing a x = Ok o -> good o.
Proof.
  intros [A1 A2 _] X H. unfold act_outgoing in H. apply bind_ok in H as (p & P & H). injection H as <-. destruct (A2 p P) as (G1 & G2 & G3).
  split; [now apply piece_of|]. apply act_only_grounded. now apply A1.
Qed.
Lemma potential_good act r o : act_named T act -> opt_fine (fine_reference T) r -> convert_potential_in_text_reference act r = Ok (Some o) -> good o.
Proof.
  intros N P H. unfold convert_potential_in_text_reference in H. destruct r as [r|]; [|discriminate]. apply bind_ok in H as (l & L & H).
  destruct l as [|x [|y l]]; try discriminate. injection H as <-. apply single_good in L; [|now apply some_fine|now apply P]. now apply Forall_cons_iff in L as [L _].
Qed.
Lemma potential_grounded act r x : act_named T act -> opt_fine (fine_reference T) r -> convert_potential_reference act r = Ok (Some x) -> grounded T x.
Proof.
  intros N P H. unfold convert_potential_reference in H. apply bind_ok in H as (o & O & H). destruct o as [o|]; [|discriminate]. injection H as <-.
  eapply potential_good; eauto.
Qed.

Definition conversion_good (c : conversion) : Prop :=
  match c with COutgoing o => good o | CAbbreviation a => abbreviation_grounded T a | CSemantic s => semantic_grounded T s end.
Lemma outgoings_good r l : outgoings r = Ok l -> (forall x, r = Ok x -> Forall good x) -> Forall conversion_good l.
Proof. intros H P. apply bind_ok in H as (x & E & H). injection H as <-. apply Forall_map. specialize (P x E). exact P. Qed.
Lemma semantics_good r l : semantics r = Ok l -> (forall x, r = Ok x -> Forall (semantic_grounded T) x) -> Forall conversion_good l.
Proof. intros H P. apply bind_ok in H as (x & E & H). injection H as <-. apply Forall_map. specialize (P x E). exact P. Qed.
Lemma both_good a b l : both a b = Ok l -> (forall x, a = Ok x -> Forall conversion_good x) ->
  (forall x, b = Ok x -> Forall conversion_good x) -> Forall conversion_good l.
Proof. intros H P Q. apply bind_ok in H as (x & X & H). apply bind_ok in H as (y & Y & H). injection H as <-. apply Forall_app. auto. Qed.
Lemma act_and_references_good a refs l : fine_act T a -> Forall (fine_reference T) refs -> act_and_references a refs = Ok l -> Forall good l.
Proof.
  intros A R H. apply bind_ok in H as (x & X & H). apply bind_ok in H as (o & O & H). apply bind_ok in H as (m & M & H). injection H as <-.
  pose proof (fa_id _ _ A _ X). constructor; [eapply act_good; eauto|eapply multiple_good; [|exact R|exact M]; now apply some_fine].
Qed.
Lemma part_said_written i j : written T i -> (n <- text_to_int_hun i ;; Ok (str_of_int n)) = Ok j -> ordinal_said T j.
Proof. intros W H. apply bind_ok in H as (n & N & H). injection H as <-. exists n, i. refine (conj W (conj _ eq_refl)). now apply ordinal_spec. Qed.
Lemma book_said b o : opt_fine (written T) b -> convert_book_id b = Ok o -> opt_fine (ordinal_said T) o.
Proof.
  intros B H. destruct b as [s|]; [|injection H as <-; apply none_fine]. cbn [convert_book_id] in H. apply bind_ok in H as (i & I & H). injection H as <-. apply some_fine.
  eapply part_said_written; [now apply B|exact I].
Qed.
Lemma structural_good act s r : act_named T act -> fine_structural T s -> convert_structural_reference act s = Ok r -> structural_grounded T r.
Proof.
  intros A S H. assert (A' : opt_fine (act_named T) (Some act)) by (now apply some_fine).
  destruct s as [raw q|i|i|i|i|b i|b i]; cbn [convert_structural_reference fine_structural] in H, S.
  - destruct S as [S1 S2]. destruct raw as [l|]; [|destruct q as [q|]; [|discriminate]].
    + injection H as <-. split; cbn; try discriminate; [exact A'|]. intros t [= <-]. right. now apply S1.
    + apply bind_ok in H as (t & Q & H). injection H as <-. split; cbn; try discriminate; [exact A'|]. intros t' [= <-]. left. destruct (S2 q eq_refl) as (x & X & W). rewrite Q in X. now injection X as ->.
  - injection H as <-. split; cbn; try discriminate; [exact A'|]. intros c [= <-]. exact S.
  - injection H as <-. split; cbn; try discriminate; [exact A'|]. intros c [= <-]. exact S.
  - injection H as <-. split; cbn; try discriminate; [exact A'|]. intros t [= <-]. right. exact S.
  - apply bind_ok in H as (t & Q & H). injection H as <-. split; cbn; try discriminate; [exact A'|]. intros t' [= <-]. exists (concat i). auto.
  - destruct S as [S1 S2]. apply bind_ok in H as (t & Q & H). apply bind_ok in H as (u & U0 & H). injection H as <-. pose proof (book_said _ _ S1 Q) as B. split; cbn; try discriminate; [exact A'|exact B|]. intros t' [= <-]. exists (concat i). auto.
  - destruct S as [S1 S2]. apply bind_ok in H as (t & Q & H). apply bind_ok in H as (u & U0 & H). injection H as <-. pose proof (book_said _ _ S1 Q) as B. split; cbn; try discriminate; [exact A'|exact B|]. intros t' [= <-]. exact (part_said_written _ _ S2 U0).
Qed.
Lemma digits_numeral s n : digits s -> py_int s = Ok n -> numeral s n.
Proof.
  intros [N D] H. assert (X : numeral s (Z.of_N (digits_val s))) by (repeat split; auto). pose proof (numeral_int _ _ X) as E. rewrite E in H. injection H as <-. exact X.
Qed.
Lemma month_index m k : In m month_names -> text_to_month_hun m = Ok k -> 1 <= k <= 12 /\ nth (Z.to_nat (k - 1)) month_names [] = m.
Proof.
  intros I. repeat (destruct I as [<-|I]; [vm_compute; intros [= <-]; split; [split; discriminate|reflexivity]|]). destruct I.
Qed.
Lemma date_good g d : fine_date T g -> convert_exact_date g = Ok d -> date_said T d.
Proof.
  intros (Y & D & M & W) H. unfold convert_exact_date in H. apply bind_ok in H as (y & Ey & H). apply bind_ok in H as (m & Em & H). apply bind_ok in H as (k & Ek & H).
  unfold Date_ in H. apply bind_ok in H as (z & _ & H). destruct z as [[a b] c]. injection H as <-. apply (month_index _ _ M) in Em as [R Em].
  exists (gd_year g), (gd_day g). cbn [d_year d_month d_day]. rewrite Em. refine (conj _ (conj _ (conj R W))); apply digits_numeral; assumption.
Qed.
Lemma number_good s n : digits s /\ written T s -> py_int s = Ok n -> number_said T n.
Proof. intros [D W] H. exists s. split; [exact W|]. left. now apply digits_numeral. Qed.
Lemma word_good s n : written T s -> text_to_int_hun s = Ok n -> number_said T n.
Proof. intros W H. exists s. split; [exact W|]. right. now apply ordinal_spec. Qed.
Lemma after_good f d : fine_after T f -> convert_after_publication_date f = Ok d -> when_said T d.
Proof.
  intros [N X] H. unfold convert_after_publication_date in H. destruct (gf_as_number f) as [n|].
  - apply bind_ok in H as (i & I & H). injection H as <-. right. eapply number_good; [now apply N|exact I].
  - destruct (gf_as_text f) as [[|c t]|]; try (injection H as <-; now left). apply bind_ok in H as (i & I & H). injection H as <-. right. eapply word_good; [now apply X|exact I].
Qed.
Lemma day_good f d : fine_day T f -> convert_day_in_month f = Ok d -> when_said T d.
Proof.
  intros (M & N & X) H. unfold convert_day_in_month in H. apply bind_ok in H as (m & Em & H). apply bind_ok in H as (k & Ek & H). injection H as <-. split.
  - destruct (gy_day_as_number f) as [n|]; [eapply number_good; [now apply N|exact Ek]|]. destruct (gy_day_as_text f) as [[|c t]|]; try discriminate. eapply word_good; [now apply X|exact Ek].
  - destruct (gy_month f) as [[|c t]|]; try (injection Em as <-; now left). right. eapply word_good; [now apply M|exact Em].
Qed.
Lemma union_grounded x y s : grounded T x -> grounded T y -> convert_amendment_and_insertion x y = Ok s -> semantic_grounded T s.
Proof.
  intros X Y H. unfold convert_amendment_and_insertion in H. pose proof (relative_grounded _ _ (without_grounded _ Y) X) as R.
  apply bind_ok in H as (i & _ & H). apply bind_ok in H as (u & U & H). injection H as <-. cbn. destruct i; [injection U as <-; exact X|].
  eapply range_grounded; [| |exact U]; [now apply first_grounded|now apply last_grounded].
Qed.
Lemma subtitle_block_grounded sr r p s : structural_grounded T sr -> opt_fine (grounded T) r -> subtitle_block sr r p = Ok s -> semantic_grounded T s.
Proof.
  intros S R H. destruct r as [r|]; [|discriminate]. specialize (R r eq_refl). apply grounded_parts in R as (A & P & _). cbn in H.
  destruct (r_article r) as [|i|i j] eqn:E; cbn in H; injection H as <-; cbn; [exact S| |]; (split; cbn; try discriminate; [exact A|]; intros c [= <-]; apply P; now left).
Qed.

Lemma node_good n l : fine_node T n -> convert_single_node n = Ok l -> Forall conversion_good l.
Proof.
  destruct n; cbn [fine_node convert_single_node]; intros N H.
  - destruct N as [A R]. eapply outgoings_good; [exact H|]. intros x X. unfold compound_to_outgoing in X. destruct act_reference as [a|].
    + apply bind_ok in X as (i & I & X). apply bind_ok in X as (o & O & X). apply bind_ok in X as (m & M & X). injection X as <-.
      pose proof (fa_id _ _ (A a eq_refl) _ I). constructor; [exact (act_good _ _ _ (A a eq_refl) I O)|eapply flat_good; [|exact R|exact M]; now apply some_fine].
    + eapply flat_good; [apply none_fine|exact R|exact X].
  - apply bind_ok in H as (x & X & H). injection H as <-. unfold act_reference_to_abbreviation in X. destruct (ga_from_now_on a) as [s|] eqn:F; [|injection X as <-; constructor].
    apply bind_ok in X as (i & I & X). injection X as <-. constructor; [|constructor]. destruct (fa_now _ _ N _ F) as [F1 F2]. split; [exact F1|]. split; [exact F2|]. exact (fa_id _ _ N _ I).
  - destruct N as (A & R1 & R2). eapply both_good; [exact H| |].
    + intros x X. eapply outgoings_good; [exact X|]. clear x X. intros x X. unfold block_to_outgoing in X.
      apply bind_ok in X as (i & I & X). apply bind_ok in X as (o & O & X). apply bind_ok in X as (m & M & X). apply bind_ok in X as (k & K & X). injection X as <-.
      pose proof (fa_id _ _ A _ I) as N. constructor; [eapply act_good; eauto|]. apply Forall_app. split.
      * destruct m; [|constructor]. constructor; [exact (potential_good _ _ _ N R1 M)|constructor].
      * destruct k as [k|]; [|destruct m; constructor]. pose proof (potential_good _ _ _ N R2 K) as [K1 K2]. destruct m as [m|]; (constructor; [|constructor]); [|split; assumption].
        destruct (potential_good _ _ _ N R1 M) as [_ M2]. split; [exact K1|]. cbn. apply relative_grounded; [now apply without_grounded|exact M2].
    + intros x X. eapply semantics_good; [exact X|]. clear x X. intros x X. unfold block_to_block in X.
      apply bind_ok in X as (i & I & X). apply bind_ok in X as (m & M & X). apply bind_ok in X as (k & K & X). pose proof (fa_id _ _ A _ I) as N.
      destruct m as [m|], k as [k|].
      * apply bind_ok in X as (s & S & X). injection X as <-. constructor; [|constructor]. eapply union_grounded; [exact (potential_grounded _ _ _ N R1 M)|exact (potential_grounded _ _ _ N R2 K)|exact S].
      * injection X as <-. constructor; [|constructor]. cbn. exact (potential_grounded _ _ _ N R1 M).
      * injection X as <-. constructor; [|constructor]. cbn. exact (potential_grounded _ _ _ N R2 K).
      * injection X as <-. constructor.
  - destruct N as (A & S & R1 & R2). eapply semantics_good; [exact H|]. intros x X. unfold subtitle_to_block in X.
    apply bind_ok in X as (i & I & X). apply bind_ok in X as (sr & Sr & X). apply bind_ok in X as (m & M & X). apply bind_ok in X as (k & K & X). pose proof (fa_id _ _ A _ I) as N.
    assert (G : structural_grounded T sr).
    { destruct structural as [st|]; [eapply structural_good; [exact N|now apply S|exact Sr]|]. injection Sr as <-. split; cbn; try discriminate. now intros y [= <-]. }
    assert (M' : opt_fine (grounded T) m) by (intros y ->; eapply potential_grounded; [exact N|exact R1|exact M]).
    assert (K' : opt_fine (grounded T) k) by (intros y ->; eapply potential_grounded; [exact N|exact R2|exact K]).
    destruct m as [m|]; [destruct k; [discriminate|]|]; apply bind_ok in X as (s & Sb & X); injection X as <-; (constructor; [|constructor]); [exact (subtitle_block_grounded _ _ _ _ G M' Sb)|exact (subtitle_block_grounded _ _ _ _ G K' Sb)].
  - destruct N as (A & R1 & R2). eapply semantics_good; [exact H|]. intros x X. unfold structural_to_block in X. apply bind_ok in X as (i & I & X). pose proof (fa_id _ _ A _ I) as N.
    destruct amended as [am|], inserted as [ins|]; try discriminate; apply bind_ok in X as (s & Sb & X); injection X as <-; (constructor; [|constructor]); cbn; [exact (structural_good _ _ _ N (R1 _ eq_refl) Sb)|exact (structural_good _ _ _ N (R2 _ eq_refl) Sb)].
  - destruct N as ([R1 R2] & D1 & D2 & D3 & D4). eapply both_good; [exact H| |].
    + intros x X. eapply semantics_good; [exact X|]. clear x X. intros x X. unfold enforcement_to_enforcement in X. apply bind_ok in X as (d & D & X). apply bind_ok in X as (rp & Rp & X).
      assert (Wd : when_said T d).
      { destruct exact_date as [e|]; [apply bind_ok in D as (y & Y & D); injection D as <-; eapply date_good; [now apply D1|exact Y]|].
        destruct after_publication as [f|]; [eapply after_good; [now apply D2|exact D]|]. destruct day_in_month as [f|]; [|discriminate]. eapply day_good; [now apply D3|exact D]. }
      assert (Wr : forall y, rp = Some y -> date_said T y).
      { intros y ->. destruct inline_repeal as [e|]; [|discriminate]. apply bind_ok in Rp as (z & Z & Rp). injection Rp as <-. eapply date_good; [now apply D4|exact Z]. }
      destruct references as [|r rs].
      * injection X as <-. constructor; [|constructor]. cbn. split; [discriminate|]. split; assumption.
      * apply bind_ok in X as (m & M & X). injection X as <-. apply Forall_map. apply multiple_good in M; [|apply none_fine|exact R1]. revert M. apply Forall_impl. intros o [_ O]. cbn. split; [now intros r' [= <-]|]. split; assumption.
    + intros x X. eapply outgoings_good; [exact X|]. clear x X. intros x X. apply bind_ok in X as (y & Y & X). apply bind_ok in X as (z & Z & X). injection X as <-. apply Forall_app.
      split; [exact (multiple_good _ _ _ (none_fine _) R1 Y)|exact (multiple_good _ _ _ (none_fine _) R2 Z)].
  - destruct N as [[A R] Q]. eapply both_good; [exact H| |].
    + intros x X. eapply semantics_good; [exact X|]. clear x X. intros x X. unfold text_to_text in X. apply bind_ok in X as (i & I & X). apply bind_ok in X as (m & M & X).
      apply multiple_good in M; [|apply some_fine; exact (fa_id _ _ A _ I)|exact R]. eapply flat_mapM_Forall; [exact X|]. intros o y Ho Y. rewrite Forall_forall in M. destruct (M o Ho) as [_ G].
      revert Y. apply mapM_Forall_in. intros [q q'] Iq z Z. rewrite Forall_forall in Q. destruct (Q _ Iq) as [(u & U1 & U2) (v & V1 & V2)]. cbn [fst snd] in U1, V1. rewrite U1, V1 in Z. injection Z as <-. cbn. auto.
    + intros x X. eapply outgoings_good; [exact X|]. intros y Y. eapply act_and_references_good; eauto.
  - destruct N as ([(u & U1 & U2) (v & V1 & V2)] & A & S & P1 & P2 & P3).
    assert (G : forall i, get_act_id act_reference = Ok i -> grounded T (mk_ref (Some i) (RId (concat article)) RNone RNone RNone)).
    { intros i I. apply grounded_parts. split; [intros a [= <-]; exact (fa_id _ _ A _ I)|]. refine (conj _ (conj _ (conj _ _))); intros j J; cbn [ids_of r_article r_paragraph r_point r_subpoint In] in J; try contradiction. destruct J as [<-|[]]. exact S. }
    eapply both_good; [exact H| |].
    + intros x X. eapply semantics_good; [exact X|]. clear x X. intros x X. apply bind_ok in X as (i & I & X). rewrite U1, V1 in X. injection X as <-.
      constructor; [|constructor]. cbn. split; [now apply G|auto].
    + intros x X. eapply outgoings_good; [exact X|]. clear x X. intros x X. apply bind_ok in X as (i & I & X). apply bind_ok in X as (o & O & X). injection X as <-.
      constructor; [eapply act_good; eauto|]. constructor; [|constructor]. split; [now apply piece_of|]. cbn. now apply G.
  - destruct N as [[A R] Q]. eapply both_good; [exact H| |].
    + intros x X. eapply semantics_good; [exact X|]. clear x X. intros x X. unfold repeal_to_repeal in X. apply bind_ok in X as (i & I & X). apply bind_ok in X as (m & M & X).
      apply multiple_good in M; [|apply some_fine; exact (fa_id _ _ A _ I)|exact R]. eapply flat_mapM_Forall; [exact X|]. intros o y Ho Y. rewrite Forall_forall in M. destruct (M o Ho) as [_ G].
      destruct texts as [|t ts]; [injection Y as <-; constructor; [split; [exact G|discriminate]|constructor]|]. revert Y. apply mapM_Forall_in. intros q Iq z Z. rewrite Forall_forall in Q. destruct (Q _ Iq) as (u & U1 & U2). rewrite U1 in Z. injection Z as <-. split; [exact G|now intros w [= <-]].
    + intros x X. eapply outgoings_good; [exact X|]. intros y Y. eapply act_and_references_good; eauto.
  - destruct N as [A S]. eapply both_good; [exact H| |].
    + intros x X. eapply semantics_good; [exact X|]. clear x X. intros x X. apply bind_ok in X as (i & I & X). apply bind_ok in X as (r & R & X). injection X as <-.
      constructor; [|constructor]. cbn. split; [|discriminate]. eapply structural_good; [exact (fa_id _ _ A _ I)|exact S|exact R].
    + intros x X. eapply outgoings_good; [exact X|]. clear x X. intros x X. apply bind_ok in X as (i & I & X). apply bind_ok in X as (o & O & X). injection X as <-.
      constructor; [eapply act_good; eauto|constructor].
  - injection H as <-. constructor.
Qed.
End Text.

Theorem grammar_sound text a : grammar_analyzer text = Some a ->
  Forall (fun o => piece text (or_start o) (or_end o) /\ grounded text (or_reference o)) (an_references a) /\
  Forall (semantic_grounded text) (an_semantic a) /\ Forall (abbreviation_grounded text) (an_abbreviations a).
Proof.
  intros H. unfold grammar_analyzer, analyzer_of in H. destruct (grammar_parse text) as [t|] eqn:E; [|discriminate].
  destruct (convert_depth_first t) as [l|] eqn:D; [|discriminate]. injection H as <-. rewrite depth_first in D. apply parse_fine in E.
  assert (F : Forall (conversion_good text) l).
  { eapply flat_mapM_Forall; [exact D|]. intros x y Hx. apply node_good. unfold fine_tree in E. rewrite Forall_forall in E. auto. }
  rewrite Forall_forall in F. split; [|split]; apply Forall_forall; intros x X; cbn in X; apply in_flat_map in X as (c & C & X); specialize (F c C);
    destruct c; cbn in X; try contradiction; destruct X as [<-|[]]; exact F.
Qed.
Lemma piece_less text a b : piece text a b -> 0 <= a < b /\ b <= Z.of_nat (length text).
Proof.
  intros (u & v & w & -> & -> & -> & N & _). rewrite !app_length. destruct v; [contradiction|]. cbn. lia.
Qed.
Theorem grammar_sane : sane_spans grammar_analyzer.
Proof.
  intros s a r H I. apply grammar_sound in H as [F _]. rewrite Forall_forall in F. destruct (F r I) as [P _]. apply piece_less in P. lia.
Qed.
