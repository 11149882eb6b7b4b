(* Sentences that replace and insert at once: what is amended. *)
From Coq Require Import Lia Permutation.
From Coq Require Import ZifyBool ZifyNat ZifyN.
From Verif Require Import PyBase PyBaseFacts NumModel NumSpec IdModel IdSpec IdProofs RefModel RefSpec RefProofs RefProofs2 RefProofs3 TreeModel SemModel GramModel GramSpec PegModel PegSpec PegSpec2 PegSpec3 PegProofs25 PegProofs29 PegProofs34 PegProofs35 CiteSpec CiteProofs CiteProofs2 CiteProofs4 CiteProofs5 JointProofs.
Local Open Scope Z_scope.

(** * Identifiers in references can be compared *)

Lemma ascii_decimal s : Forall (fun c => (c < 128)%N) s -> decimal_id s.
Proof.
  assert (A : forallb (fun n => negb (isdigit_chr (N.of_nat n)) || match decimal_value (N.of_nat n) with Some _ => true | None => false end) (seq 0 128) = true) by (vm_compute; reflexivity).
  rewrite forallb_forall in A. intros F. eapply Forall_impl; [|exact F]. intros c C D. assert (I : In (N.to_nat c) (seq 0 128)) by (apply in_seq; clear - C; cbv beta in C; lia).
  apply A in I. rewrite N2Nat.id, D in I. cbn [negb orb] in I. unfold good_digit. destruct (decimal_value c) as [d|]; [eauto|discriminate I].
Qed.
Lemma decimal_check s : forallb (fun c => negb (isdigit_chr c) || match decimal_value c with Some _ => true | None => false end) s = true -> decimal_id s.
Proof. intros H. rewrite forallb_forall in H. apply Forall_forall. intros c C D. apply H in C. rewrite D in C. cbn [negb orb] in C. unfold good_digit. destruct (decimal_value c) as [d|]; [eauto|discriminate C]. Qed.
Lemma hun_decimal s : Forall (fun c => hun_small c \/ hun_capital c \/ (c < 128)%N) s -> decimal_id s.
Proof.
  intros F. assert (L : forall c, In c (u8 "éáőúöüóíűÉÁŐÚÖÜÓÍŰ") -> isdigit_chr c = false) by (intros c I; repeat (destruct I as [<-|I]; [vm_compute; reflexivity|]); destruct I).
  assert (A : forall c, (c < 128)%N -> isdigit_chr c = true -> good_digit c) by (intros c C D; pose proof (ascii_decimal [c] ltac:(now constructor)) as H; inversion H; auto).
  eapply Forall_impl; [|exact F]. intros c [[H|H]|[[H|H]|H]] D.
  - apply A; [unfold is_small in H; lia|exact D].
  - rewrite L in D; [discriminate D|]. apply (in_or_app (u8 "éáőúöüóíű") (u8 "ÉÁŐÚÖÜÓÍŰ")). now left.
  - apply A; [unfold is_capital in H; lia|exact D].
  - rewrite L in D; [discriminate D|]. apply (in_or_app (u8 "éáőúöüóíű") (u8 "ÉÁŐÚÖÜÓÍŰ")). now right.
  - now apply A.
Qed.
Lemma part_id_decimal t i : part_id t i -> decimal_id i.
Proof.
  assert (D : forall n, digits n -> Forall (fun c => (c < 128)%N) n) by (intros n [_ F]; eapply Forall_impl; [|exact F]; intros c C; clear - C; cbv beta in *; lia).
  assert (M : forall l, maybe is_small l -> Forall (fun c => (c < 128)%N) l) by (intros l [|c C]; repeat constructor; unfold is_small in *; lia).
  assert (Q : forall c, is_small c \/ is_capital c -> Forall (fun c => (c < 128)%N) [c]) by (intros c H; repeat constructor; unfold is_small, is_capital in *; lia).
  assert (Sl : forall c, is_small c \/ is_capital c -> Forall (fun c => (c < 128)%N) [47%N; c]) by (intros c H; constructor; [reflexivity|now apply Q]).
  intros P. apply ascii_decimal. destruct t; cbn in P.
  - destruct P as [n N|n c N C|b n B N|b n c B N C]; repeat (apply Forall_app; split); auto. all: repeat constructor.
  - destruct P as (n & l & -> & N & L). apply Forall_app. auto.
  - destruct P as [(c & -> & C)|[->| ->]]; [now apply Q; left| |]; repeat constructor.
  - destruct P as [n N|n c N C|n c N C]; repeat (apply Forall_app; split); auto.
  - destruct P as (c & l & -> & C & L). apply (Forall_app _ [c] l). auto.
  - auto.
Qed.
Definition fair (p : rpart) : Prop := match p with RNone => True | RId s => decimal_id s | RRange a b => decimal_id a /\ decimal_id b end.
Lemma item_fair t p x : item_written t p x -> fair p.
Proof. intros [i I|i d j I J _]; cbn; eauto using part_id_decimal. Qed.
Lemma items_fair t k x items : items_written t k x items -> Forall (fun y => fair (ad_data y)) items.
Proof. intros W. induction W as [k p x I|k p x sep y l I _ _ IH]; constructor; cbn; eauto using item_fair. Qed.
Lemma grouped_fair l g : grouped l g -> Forall (fun y => fair (ad_data y)) l -> Forall (fun y => fair (ad_data y)) g.
Proof.
  intros G. induction G as [|x l out _ _ IH|x y a b l out _ A B _ IH]; intros F; [constructor|inversion F; subst; constructor; auto|]. inversion F as [|? ? F1 F2]; subst. inversion F2 as [|? ? F3 F4]; subst. constructor; [|auto].
  rewrite A in F1. rewrite B in F3. cbn in *. auto.
Qed.
Lemma joined_fair l out : joined l out -> Forall (fun y => fair (ad_data y)) l -> Forall (fun y => fair (ad_data y)) out.
Proof.
  intros (g & G & P & _) F. eapply Permutation_Forall; [exact P|]. eapply grouped_fair; [exact G|]. apply Forall_app. rewrite Forall_forall in F. split; apply Forall_forall; intros y Y; apply filter_In in Y as [Y _]; auto.
Qed.
Lemma level_fair n k w out : level_listed n k w out -> Forall (fun y => fair (ad_data y)) out.
Proof. intros [[_ ->]|(t & x & e & items & _ & W & _ & _ & J & _)]; [constructor|]. eapply joined_fair; [exact J|]. eapply items_fair; exact W. Qed.
Lemma cites_readable n ls r s e out : cites n ls r s e out -> readable r -> Forall (Forall (fun y => fair (ad_data y))) ls -> Forall (fun o => readable (or_reference o)) out.
Proof.
  assert (W : forall r n p, readable r -> fair p -> readable (with_part r n p)).
  { intros r' n' p R P. unfold readable, components in *. inversion R as [|? ? R0 Q0]; subst. inversion Q0 as [|? ? R1 Q1]; subst. inversion Q1 as [|? ? R2 Q2]; subst. inversion Q2 as [|? ? R3 Q3]; subst. inversion Q3 as [|? ? R4 Q4]; subst.
    unfold fair in P. destruct n' as [|[|[|[|n']]]]; cbn; repeat (constructor; [assumption|]); constructor. }
  intros C. induction C as [n r s e|n ls r s e out C IH|n x ls r s e out C IH|n x y l ls r s e out C IH]; intros R F.
  - constructor; [exact R|constructor].
  - inversion F; subst. auto.
  - inversion F as [|? ? F1 F2]; subst. inversion F1; subst. auto.
  - inversion F as [|? ? F1 F2]; subst. inversion F1; subst. constructor; [now apply W|]. auto.
Qed.
Lemma act_decimal a x y m : act_written a x y m -> decimal_id a.
Proof.
  assert (N : forall y n, digits y -> roman_letters n -> decimal_id (y ++ u8 ". évi " ++ n ++ u8 ". törvény")).
  { intros y' n [_ Y] [_ R]. apply decimal_id_app; [apply ascii_decimal; eapply Forall_impl; [|exact Y]; intros c C; clear - C; cbv beta in *; lia|]. apply decimal_id_app; [now apply decimal_check|].
    apply decimal_id_app; [apply ascii_decimal; eapply Forall_impl; [|exact R]; intros c C; repeat (destruct C as [<-|C]; [reflexivity|]); destruct C|]. now apply decimal_check. }
  intros [s (c & w & -> & C & _ & W)|y' n e Y R _|y' n e s Y R _ _]; auto. apply hun_decimal. constructor; [auto|]. apply Forall_app. split; [eapply Forall_impl; [|exact W]; auto|]. constructor; [right; right; reflexivity|constructor].
Qed.
Lemma act_readable a x y m : act_written a x y m -> readable (no_parts (Some a)).
Proof. intros A. apply act_decimal in A. constructor; [exact A|]. repeat (constructor; [exact Logic.I|]). constructor. Qed.
Lemma listed_readable a k w out : readable (no_parts (Some a)) -> reference_listed (Some a) k w out -> Forall (fun o => readable (or_reference o)) out.
Proof.
  intros A (a' & p & q & s & la & lp & lq & ls & L1 & L2 & L3 & L4 & _ & _ & C). eapply cites_readable; [exact C|exact A|]. repeat (constructor; [eauto using level_fair|]). constructor.
Qed.
Lemma joint_readable a k i out : readable (no_parts (Some a)) -> joint_insertion (Some a) k i out -> Forall (fun o => readable (or_reference o)) out.
Proof.
  intros A J. destruct J as [i out I|v p out i _ V _ C|j v p out i _ _ V _ C].
  - destruct I as [w v x p out i _ L1 _ L2 C|w v x p out i _ L1 L2 _ C|w v z x p q out i _ L1 L2 _ L3 _ C|w v z y x p q r out i _ L1 _ L2 L3 _ L4 _ C]; (eapply cites_readable; [exact C|exact A|]); repeat (constructor; [eauto using level_fair|]); constructor.
  - eapply cites_readable; [exact C|exact A|]. repeat (constructor; [eauto using level_fair|]); constructor.
  - eapply cites_readable; [exact C|exact A|]. repeat (constructor; [eauto using level_fair|]); constructor.
Qed.
Lemma both_readable text act am ins m : both_written text act am ins m -> Forall (fun o => readable (or_reference o)) (am ++ ins).
Proof.
  intros [z u a x y m' w am' f c i ins' f' k k' _ _ A _ _ R _ _ _ J _ _]. apply act_readable in A. apply Forall_app. split; [eapply listed_readable; eassumption|eapply joint_readable; eassumption].
Qed.
Lemma both_act text act am ins m : both_written text act am ins m -> Forall (fun o => r_act (or_reference o) = r_act (or_reference act)) (am ++ ins).
Proof.
  intros [z u a x y m' w am' f c i ins' f' k k' _ _ A _ _ R _ _ _ J _ _]. cbn. apply Forall_app. split; [apply (reference_acts _ _ _ _ R)|].
  destruct J as [i out I|v p out i _ V _ C|j v p out i _ _ V _ C]; [|apply (cites_act _ _ _ _ _ _ C)|apply (cites_act _ _ _ _ _ _ C)].
  destruct I as [? ? ? ? ? ? _ _ _ _ C|? ? ? ? ? ? _ _ _ _ C|? ? ? ? ? ? ? ? _ _ _ _ _ _ C|? ? ? ? ? ? ? ? ? ? _ _ _ _ _ _ _ _ C]; apply (cites_act _ _ _ _ _ _ C).
Qed.
Lemma filled_readable r r' f : filled r (with_act None r') f -> readable r -> readable r' -> readable f.
Proof.
  intros (i & _ & F) R R'. unfold readable. apply Forall_forall. intros p P. apply (In_nth _ _ RNone) in P as (j & J & <-). change (length (components f)) with 5%nat in J. fold (nth_part f j). rewrite F by exact J. unfold readable in R, R'. rewrite Forall_forall in R, R'.
  destruct (j <? i)%nat; [apply R, nth_In; exact J|]. destruct j as [|j]; [exact Logic.I|]. apply (R' (nth_part r' (S j))). apply nth_In. exact J.
Qed.

(** * One reference for both *)

Lemma nth_first r i : nth_part (first_in_range r) i = part_first (nth_part r i).
Proof. unfold nth_part. rewrite first_components. exact (map_nth part_first (components r) RNone i). Qed.
Lemma nth_last r i : nth_part (last_in_range r) i = part_last (nth_part r i).
Proof. unfold nth_part. rewrite last_components. exact (map_nth part_last (components r) RNone i). Qed.
Lemma ends_first r a z : ends_of r a z -> a = first_in_range r /\ z = last_in_range r.
Proof.
  intros E. split; apply nth_components_inj; intros i I; specialize (E i I); [rewrite nth_first|rewrite nth_last]; destruct (nth_part r i); cbn; destruct E; assumption.
Qed.
Lemma first_ends r : ends_of r (first_in_range r) (last_in_range r).
Proof. intros i I. rewrite nth_first, nth_last. destruct (nth_part r i); cbn; auto. Qed.
Lemma parent_loop_above xs : forall ys, length xs = length ys -> is_parent_loop xs ys = true <->
  exists i, (i < length xs)%nat /\ nth i xs RNone = RNone /\ nth i ys RNone <> RNone /\ forall j, (j < i)%nat -> nth j xs RNone = nth j ys RNone.
Proof.
  induction xs as [|x xs IH]; intros [|y ys] L; try discriminate L.
  - split; [discriminate|]. intros (i & I & _). cbn in I. lia.
  - cbn [is_parent_loop]. destruct (rpart_eqb x y) eqn:E; cbn [negb].
    + apply rpart_eqb_eq in E. subst y. injection L as L. rewrite (IH ys L). split.
      * intros (i & I & A & B & C). exists (S i). split; [cbn; lia|]. split; [exact A|]. split; [exact B|]. intros [|j] J; [reflexivity|]. apply C. lia.
      * intros ([|i] & I & A & B & C); [cbn in A, B; contradiction|]. exists i. split; [cbn in I; lia|]. split; [exact A|]. split; [exact B|]. intros j J. exact (C (S j) ltac:(lia)).
    + assert (D : x <> y) by (intros H; apply rpart_eqb_eq in H; congruence). split.
      * intros H. destruct x; try discriminate H. exists 0%nat. split; [cbn; lia|]. split; [reflexivity|]. split; [cbn; congruence|]. intros j J. lia.
      * intros ([|i] & I & A & B & C); [cbn in A; now subst x|]. exfalso. apply D. exact (C 0%nat ltac:(lia)).
Qed.
Lemma parent_above a b : is_parent_of a b = true <-> above a b.
Proof. unfold is_parent_of. rewrite parent_loop_above by reflexivity. reflexivity. Qed.
Lemma above_before a b : no_ranges b -> above a b -> ref_before a b.
Proof.
  intros N (i & I & A & B & C). exists i. split; [exact I|]. split; [|exact C]. rewrite A. unfold no_ranges in N. rewrite Forall_forall in N. specialize (N (nth_part b i) (nth_In (components b) RNone I)). destruct (nth_part b i); [contradiction|constructor|contradiction].
Qed.
Lemma contains_lies r f : readable r -> readable f -> exists b, contains r (first_in_range f) = Ok b /\ (b = true <-> lies_in (first_in_range r) (last_in_range r) (first_in_range f)).
Proof.
  intros R F. destruct (contains_total r (first_in_range f) R (first_readable f F)) as (b & C & H). exists b. split; [exact C|]. rewrite H. pose proof (first_no_ranges f) as N. destruct (first_of_single (first_in_range f)) as [-> ->]; [now apply is_range_no_ranges|].
  rewrite !parent_above. unfold lies_in. split; intros [A B]; (split; [|intuition congruence]); [destruct A as [A|[A|A]]; [now left|now right|right; now apply above_before]|tauto].
Qed.
Lemma part_spans p q t : part_single p -> part_single q -> part_readable p -> part_readable q -> (make_range_part p q = Ok t <-> spans p q t).
Proof.
  intros P Q Rp Rq. split.
  - intros H. destruct p as [|a|pa pb], q as [|b|qa qb]; cbn in P, Q; try contradiction; cbn in H; try discriminate H; [injection H as <-; constructor|]. destruct (str_eqb a b) eqn:E; [apply str_eqb_eq in E; subst b; injection H as <-; constructor|].
    destruct (identifier_less a b) as [[]|] eqn:I; cbn in H; try discriminate H. injection H as <-. apply sp_range. apply part_before_ids; assumption.
  - intros V. destruct V as [p'|a b B] in P, Q, Rp, Rq |- *.
    + destruct p' as [|a|pa pb]; cbn in *; [reflexivity| |contradiction]. now rewrite (proj2 (str_eqb_eq a a) eq_refl).
    + cbn. destruct (str_eqb a b) eqn:E; [apply str_eqb_eq in E; subst b; exfalso; eapply part_before_irrefl; [|exact B]; exact Rp|]. apply part_before_ids in B; [|assumption|assumption]. now rewrite B.
Qed.
Lemma make_range_spans a y u : no_ranges a -> no_ranges y -> readable a -> readable y -> r_act a = r_act y ->
  (make_range a y = Ok u <-> forall i, (i < 5)%nat -> spans (nth_part a i) (nth_part y i) (nth_part u i)).
Proof.
  intros Na Ny Ra Ry A. apply no_ranges_parts in Na as (A1 & A2 & A3 & A4). apply no_ranges_parts in Ny as (Y1 & Y2 & Y3 & Y4). apply readable_parts in Ra as (B1 & B2 & B3 & B4). apply readable_parts in Ry as (Z1 & Z2 & Z3 & Z4).
  assert (O : opt_str_or (r_act a) (r_act y) = r_act a) by (rewrite <- A; destruct (r_act a) as [[|c t]|]; reflexivity). unfold make_range. rewrite O. split.
  - intros H. apply bind_ok in H as (t1 & E1 & H). apply bind_ok in H as (t2 & E2 & H). apply bind_ok in H as (t3 & E3 & H). apply bind_ok in H as (t4 & E4 & H). injection H as <-.
    apply part_spans in E1, E2, E3, E4; auto. intros i I. destruct i as [|[|[|[|[|i]]]]]; [|assumption|assumption|assumption|assumption|lia]. unfold nth_part. cbn. rewrite A. constructor.
  - intros H. pose proof (H 0%nat ltac:(lia)) as H0. pose proof (H 1%nat ltac:(lia)) as H1. pose proof (H 2%nat ltac:(lia)) as H2. pose proof (H 3%nat ltac:(lia)) as H3. pose proof (H 4%nat ltac:(lia)) as H4. clear H.
    apply part_spans in H1, H2, H3, H4; auto. unfold nth_part in *. cbn in H0, H1, H2, H3, H4. rewrite H1, H2, H3, H4. cbn [bind]. destruct u as [ua u1 u2 u3 u4]. cbn in *. do 2 f_equal. rewrite A in *. inversion H0 as [p P1 P2 P3|]; destruct (r_act y), ua; try discriminate; cbn in *; congruence.
Qed.
Lemma united_converts r r' f : readable r -> readable f -> r_act r = r_act f -> relative_to (with_act None r') r = f ->
  (forall u, united r f u -> convert_amendment_and_insertion r r' = Ok (BlockAmendment (ARef u) false)) /\
  ((forall u, ~ united r f u) -> convert_amendment_and_insertion r r' = Err AssertionError).
Proof.
  intros R F A E. unfold convert_amendment_and_insertion. change (without_act r') with (with_act None r'). rewrite E. destruct (contains_lies r f R F) as (b & C & H). rewrite C. cbn [bind].
  pose proof (first_no_ranges r) as N1. pose proof (last_no_ranges f) as N2. pose proof (first_readable r R) as Q1. pose proof (last_readable f F) as Q2.
  pose proof (fun u => make_range_spans (first_in_range r) (last_in_range f) u N1 N2 Q1 Q2 A) as M. split.
  - intros u U. destruct U as [a z x y E1 E2 L|a z x y u E1 E2 L U]; apply ends_first in E1 as [-> ->]; apply ends_first in E2 as [-> ->].
    + apply H in L. now rewrite L.
    + destruct b; [exfalso; apply L, H; reflexivity|]. apply M in U. now rewrite U.
  - intros N. destruct b; [exfalso; apply (N r); eapply un_within; [apply first_ends|apply first_ends|now apply H]|].
    destruct (make_range_spec _ _ N1 N2 Q1 Q2) as [[_ (u & U)]|[_ U]]; [|now rewrite U]. exfalso. apply (N u). eapply un_over; [apply first_ends|apply first_ends|intros L; apply H in L; discriminate L|now apply M].
Qed.

(** * Conversion *)

Definition the_only (l : list outgoing_reference) : option outgoing_reference := match l with [o] => Some o | _ => None end.
Lemma only_none (l : list outgoing_reference) : length l <> 1%nat -> the_only l = None.
Proof. destruct l as [|o [|o' l]]; intros H; [reflexivity|now destruct H|reflexivity]. Qed.
Lemma potential_only a g l : convert_single_in_text_reference (Some a) g = Ok l -> convert_potential_in_text_reference a (Some g) = Ok (the_only l).
Proof. intros C. cbn [convert_potential_in_text_reference]. rewrite C. destruct l as [|o [|o' l]]; reflexivity. Qed.
Definition joint_outgoing (x y : option outgoing_reference) : list outgoing_reference :=
  match x, y with
  | Some x, Some y => [x; evolve_reference y (relative_to (without_act (or_reference y)) (or_reference x))]
  | Some x, None => [x]
  | None, Some y => [y]
  | None, None => []
  end.
Definition joint_semantic (x y : option outgoing_reference) : res (list semantic_data) :=
  match x, y with
  | Some x, Some y => s <- convert_amendment_and_insertion (or_reference x) (or_reference y) ;; Ok [s]
  | Some x, None => Ok [BlockAmendment (ARef (or_reference x)) false]
  | None, Some y => Ok [BlockAmendment (ARef (or_reference y)) true]
  | None, None => Ok []
  end.
Lemma both_converts a k k' m h g g' am ins : says_act a k k' m h -> convert_single_in_text_reference (Some a) g = Ok am -> convert_single_in_text_reference (Some a) g' = Ok ins ->
  convert_depth_first (node_with_act (fun a => GBlockAmendment a (Some g) (Some g')) h) =
  (s <- joint_semantic (the_only am) (the_only ins) ;; Ok (map CAbbreviation m ++ map COutgoing (mk_outgoing k k' (act_only a) :: joint_outgoing (the_only am) (the_only ins)) ++ map CSemantic s)).
Proof.
  intros (I & J & N) C D. apply potential_only in C, D. unfold node_with_act. cbn [convert_depth_first convert_single_node]. rewrite N. cbn [bind].
  assert (O : block_to_outgoing h (Some g) (Some g') = Ok (mk_outgoing k k' (act_only a) :: joint_outgoing (the_only am) (the_only ins))).
  { unfold block_to_outgoing, act_outgoing. rewrite I. cbn [bind]. rewrite J. cbn [bind fst snd]. rewrite C. cbn [bind]. rewrite D. cbn [bind]. destruct (the_only am), (the_only ins); reflexivity. }
  assert (B : block_to_block h (Some g) (Some g') = joint_semantic (the_only am) (the_only ins)).
  { unfold block_to_block, convert_potential_reference. rewrite I. cbn [bind]. rewrite C. cbn [bind]. rewrite D. cbn [bind]. destruct (the_only am), (the_only ins); reflexivity. }
  rewrite O, B. destruct (joint_semantic (the_only am) (the_only ins)) as [s|e]; cbn [bind outgoings semantics both]; [|reflexivity]. cbn. now rewrite ?app_nil_r.
Qed.
Lemma conversions_both m o l : let c := map CAbbreviation m ++ map COutgoing o ++ map CSemantic l in mk_analysis (all_references c) (semantic_data_of c) (act_id_abbreviations c) = mk_analysis o l m.
Proof.
  cbv zeta. assert (K : forall c, c = map CAbbreviation m ++ map COutgoing o ++ map CSemantic l -> all_references c = o /\ semantic_data_of c = l /\ act_id_abbreviations c = m).
  { intros c ->. unfold all_references, semantic_data_of, act_id_abbreviations. induction m as [|x m' (A & B & C)]; [|cbn [map app flat_map] in *; now rewrite A, B, C].
    cbn [map app]. induction o as [|x o' (A & B & C)]; [|cbn [map app flat_map] in *; now rewrite A, B, C]. cbn [map app]. induction l as [|x l' (A & B & C)]; [now split|]. cbn [map app flat_map] in *. now rewrite A, B, C. }
  destruct (K _ eq_refl) as (-> & -> & ->). reflexivity.
Qed.
Lemma both_analysed text act am ins m : both_written text act am ins m ->
  grammar_analyzer text = match joint_semantic (the_only am) (the_only ins) with Ok s => Some (mk_analysis (act :: joint_outgoing (the_only am) (the_only ins)) s m) | Err _ => None end.
Proof.
  intros W. destruct (both_parsed text act am ins m W) as (a & h & g & g' & G & Y & E & C & D). unfold grammar_analyzer, analyzer_of, grammar_parse. rewrite G. rewrite (both_converts a _ _ m h g g' am ins Y C D).
  destruct (joint_semantic (the_only am) (the_only ins)) as [s|e]; cbn [bind]; [|reflexivity]. rewrite conversions_both. now rewrite <- E.
Qed.
Lemma both_ready text act s e r s' e' r' f m : both_written text act [mk_outgoing s e r] [mk_outgoing s' e' r'] m -> filled r (with_act None r') f ->
  readable r /\ readable f /\ r_act r = r_act f /\ relative_to (with_act None r') r = f.
Proof.
  intros W F. pose proof (both_readable _ _ _ _ _ W) as R. pose proof (both_act _ _ _ _ _ W) as A. cbn [app] in R, A. inversion R as [|? ? R1 R2]; subst. inversion R2 as [|? ? R3 _]; subst. cbn in R1, R3. clear R R2.
  split; [exact R1|]. split; [exact (filled_readable r r' f F R1 R3)|]. split; [|now apply filled_relative]. destruct F as (i & (_ & N & _) & F). specialize (F 0%nat ltac:(lia)). destruct i as [|i]; [now destruct N|]. change (0 <? Datatypes.S i)%nat with true in F.
  unfold nth_part in F. cbn in F. destruct (r_act r), (r_act f); cbn in F; congruence.
Qed.

Theorem block_found text refs sd m : block_written text refs sd m -> grammar_analyzer text = Some (mk_analysis refs [sd] m).
Proof.
  intros [act o new m' W|act s e r s' e' r' f u m' W F U|act o ins m' W L|act am o m' W L].
  - destruct (amendment_parsed text act [o] new m' W) as (a & h & am & ins & g & G & Y & E & C & D). unfold grammar_analyzer, analyzer_of, grammar_parse. rewrite G.
    rewrite (block_converts a _ _ m' h am ins g o Y C) by (destruct new; [now right|now left]). rewrite (conversions_of _ _ _ _ _ eq_refl). fold (act_only a). rewrite <- E. do 2 f_equal. destruct new; injection D as -> ->; reflexivity.
  - rewrite (both_analysed _ _ _ _ _ W). destruct (both_ready _ _ _ _ _ _ _ _ _ _ W F) as (R & R' & A & E). cbn [the_only joint_semantic joint_outgoing or_reference]. rewrite (proj1 (united_converts r r' f R R' A E) u U). cbn [bind]. change (without_act r') with (with_act None r'). now rewrite E.
  - rewrite (both_analysed _ _ _ _ _ W), (only_none _ L). reflexivity.
  - rewrite (both_analysed _ _ _ _ _ W), (only_none _ L). reflexivity.
Qed.
Theorem lost_found text refs m : lost_written text refs m -> grammar_analyzer text = Some (mk_analysis refs [] m).
Proof.
  intros [act out new m' W L|act am ins m' W L L'].
  - destruct (amendment_parsed text act out new m' W) as (a & h & am & ins & g & G & Y & E & C & D). unfold grammar_analyzer, analyzer_of, grammar_parse. rewrite G.
    rewrite (lost_converts a _ _ m' h am ins g out Y C L) by (destruct new; [now right|now left]). rewrite (conversions_act m'). fold (act_only a). now rewrite <- E.
  - rewrite (both_analysed _ _ _ _ _ W), (only_none _ L), (only_none _ L'). reflexivity.
Qed.
Theorem clash_found text : clash_written text -> grammar_analyzer text = None.
Proof.
  intros [act s e r s' e' r' f m W F U]. rewrite (both_analysed _ _ _ _ _ W). destruct (both_ready _ _ _ _ _ _ _ _ _ _ W F) as (R & R' & A & E). cbn [the_only joint_semantic joint_outgoing or_reference]. rewrite (proj2 (united_converts r r' f R R' A E) U). reflexivity.
Qed.
