(* Sentences with lists of identifiers. *)
From Coq Require Import Lia Permutation Sorted.
From Verif Require Import PyBase PyBaseFacts UnicodeAlnum NumModel IdModel LineModel DateModel RefModel RefSpec TreeModel StructModel SemModel GramModel GramSpec GramProofs GramProofs2 GramProofs3 PegModel PegSpec PegSpec2 PegProofs PegProofs2 PegProofs7 PegProofs10 PegProofs11 PegProofs14 PegProofs22 PegProofs23 PegProofs24 PegProofs25 PegProofs26 PegProofs27 PegProofs28 PegProofs29 PegProofs30 PegProofs31 CiteSpec CiteProofs CiteProofs2 CiteProofs3.
Local Open Scope Z_scope.

(** * The conversion of a reference *)

Definition additions_in (l : list g_part) : list addition := flat_map additions_of_part l.
Definition level_facts (n : nat) (out : list addition) (l : list g_part) (g : list addition) : Prop :=
  grouped (additions_in l) g /\ Permutation g out /\ in_text_order out /\ Forall (fun x => level_of (ad_type x) = n) (additions_in l) /\ Forall real (additions_in l) /\
  (Forall (fun x => tame_item (ad_type x) (ad_data x)) (additions_in l) \/ exists x, additions_in l = [x] /\ ad_type x = PAlphabeticSubpoint).
Lemma filter_both (P : addition -> Prop) f l : Forall P l -> Forall P (filter f l ++ filter (fun x => negb (f x)) l).
Proof. intros F. apply Forall_app. rewrite Forall_forall in F. split; apply Forall_forall; intros x X; apply filter_In in X; now apply F. Qed.
Lemma says_facts n out l : says_list n out l -> exists g, level_facts n out l g.
Proof.
  intros [[-> ->]|(t & k & x & items & p & L & -> & W & O & (g & G & P & S) & (T & A))].
  - exists []. repeat split; try constructor. constructor.
  - exists g. unfold level_facts, additions_in. cbn [flat_map]. rewrite app_nil_r, A. split; [exact G|]. split; [exact P|]. split; [exact S|]. split; [|split].
    + apply filter_both. apply items_type in W. revert W. apply Forall_impl. intros a <-. exact L.
    + apply filter_both. eapply items_real. exact W.
    + destruct (part_type_eqb t PAlphabeticSubpoint) eqn:Q.
      * apply same_type in Q. right. specialize (O Q). destruct W as [k p' x W|k p' x sep y l W Sp W2]; [|destruct W2; discriminate O]. exists (mk_add t p' k (k + size x)). split; [|exact Q].
        cbn [filter]. unfold is_one. cbn [ad_data]. now destruct p'.
      * left. apply filter_both. eapply items_tame; [exact W|]. intros ->. discriminate Q.
Qed.
Lemma at_other k m l : (forall x, In x l -> level_of (ad_type x) = m) -> at_level k l = if (m =? k)%nat then l else [].
Proof.
  intros H. unfold at_level. induction l as [|x l IH]; [now destruct (m =? k)%nat|]. cbn [filter]. rewrite (H x) by now left. rewrite IH by (intros y Y; apply H; now right). now destruct (m =? k)%nat.
Qed.
Lemma list_converts act l0 l1 l2 l3 a b q p s e out : says_list 1 a l0 -> says_list 2 b l1 -> says_list 3 q l2 -> says_list 4 p l3 -> cites 1 [a; b; q; p] (no_parts act) s e out ->
  convert_single_in_text_reference act (mk_greference (l0 ++ l1 ++ l2 ++ l3) (s, e)) = Ok out.
Proof.
  intros S0 S1 S2 S3 C. apply says_facts in S0 as (g0 & G0 & P0 & O0 & T0 & R0 & F0). apply says_facts in S1 as (g1 & G1 & P1 & O1 & T1 & R1 & F1).
  apply says_facts in S2 as (g2 & G2 & P2 & O2 & T2 & R2 & F2). apply says_facts in S3 as (g3 & G3 & P3 & O3 & T3 & R3 & F3).
  unfold convert_single_in_text_reference. cbn [gr_parts gr_span fst snd]. rewrite fill_all. fold (additions_in (l0 ++ l1 ++ l2 ++ l3)).
  assert (AP : additions_in (l0 ++ l1 ++ l2 ++ l3) = additions_in l0 ++ additions_in l1 ++ additions_in l2 ++ additions_in l3) by (unfold additions_in; now rewrite !flat_map_app). rewrite AP.
  set (A0 := additions_in l0) in *. set (A1 := additions_in l1) in *. set (A2 := additions_in l2) in *. set (A3 := additions_in l3) in *.
  rewrite Forall_forall in T0, T1, T2, T3.
  assert (TM : forall n A, (forall x, In x A -> level_of (ad_type x) = n) -> n <> 4%nat -> Forall (fun x => tame_item (ad_type x) (ad_data x)) A \/ (exists x, A = [x] /\ ad_type x = PAlphabeticSubpoint) -> Forall (fun x => tame_item (ad_type x) (ad_data x)) A).
  { intros n A T N [F|(x & -> & X)]; [exact F|]. exfalso. apply N. rewrite <- (T x) by now left. now rewrite X. }
  apply (TM 1%nat A0 T0) in F0; [|discriminate]. apply (TM 2%nat A1 T1) in F1; [|discriminate]. apply (TM 3%nat A2 T2) in F2; [|discriminate].
  assert (AD : fine (add_all (new_collector act) (A0 ++ A1 ++ A2 ++ A3))).
  { rewrite !app_assoc. rewrite <- (app_assoc A0). assert (F : Forall (fun x => tame_item (ad_type x) (ad_data x)) (A0 ++ A1 ++ A2)) by (apply Forall_app; split; [exact F0|]; apply Forall_app; auto).
    rewrite add_all_app. destruct (add_all_ends _ _ (new_tame act) F) as (c & -> & T). cbn [bind]. destruct F3 as [F3|(x & -> & X)].
    - destruct (add_all_ends c A3 T F3) as (c' & -> & _). eexists. reflexivity.
    - cbn [add_all]. destruct (add_after c x T X) as (c' & ->). eexists. reflexivity. }
  destruct AD as (c & AD). rewrite AD. cbn [bind]. f_equal.
  assert (RR : Forall real (A0 ++ A1 ++ A2 ++ A3)) by (repeat (apply Forall_app; split); assumption).
  destruct (collector_yields act _ c (Some s) e RR AD) as (g & refs & o & args & G & It & ->).
  assert (NE : forall A B n m, (forall x, In x A -> level_of (ad_type x) = n) -> (forall x, In x B -> level_of (ad_type x) = m) -> n <> m -> forall x y, In x A -> In y B -> ad_type x <> ad_type y).
  { intros A B n m TA TB N x y X Y E. apply TA in X. apply TB in Y. congruence. }
  assert (GG : grouped (A0 ++ A1 ++ A2 ++ A3) (g0 ++ g1 ++ g2 ++ g3)).
  { apply grouped_app; [exact G0| |].
    - apply grouped_app; [exact G1| |].
      + apply grouped_app; [exact G2|exact G3|]. apply (NE A2 A3 3%nat 4%nat); auto.
      + intros x y X Y. apply in_app_iff in Y as [Y|Y]; [revert x y X Y; apply (NE A1 A2 2%nat 3%nat); auto|revert x y X Y; apply (NE A1 A3 2%nat 4%nat); auto].
    - intros x y X Y. apply in_app_iff in Y as [Y|Y]; [revert x y X Y; apply (NE A0 A1 1%nat 2%nat); auto|]. apply in_app_iff in Y as [Y|Y]; [revert x y X Y; apply (NE A0 A2 1%nat 3%nat); auto|revert x y X Y; apply (NE A0 A3 1%nat 4%nat); auto]. }
  rewrite (grouped_unique _ _ G _ GG) in It. clear G GG g.
  assert (TG : forall n A g, grouped A g -> (forall x, In x A -> level_of (ad_type x) = n) -> forall x, In x g -> level_of (ad_type x) = n).
  { intros n A g G T. apply Forall_forall. apply (grouped_types A g G (fun t => level_of t = n)). now apply Forall_forall. }
  pose proof (TG _ _ _ G0 T0) as U0. pose proof (TG _ _ _ G1 T1) as U1. pose proof (TG _ _ _ G2 T2) as U2. pose proof (TG _ _ _ G3 T3) as U3. clear TG.
  assert (H : forall k, held k (g0 ++ g1 ++ g2 ++ g3) = level_items ((if (1 =? k)%nat then g0 else []) ++ (if (2 =? k)%nat then g1 else []) ++ (if (3 =? k)%nat then g2 else []) ++ (if (4 =? k)%nat then g3 else []))).
  { intros k. unfold held. assert (Q : at_level k (g0 ++ g1 ++ g2 ++ g3) = (if (1 =? k)%nat then g0 else []) ++ (if (2 =? k)%nat then g1 else []) ++ (if (3 =? k)%nat then g2 else []) ++ (if (4 =? k)%nat then g3 else [])).
    { unfold at_level at 1. rewrite !filter_app. fold (at_level k g0) (at_level k g1) (at_level k g2) (at_level k g3). now rewrite (at_other k 1 g0), (at_other k 2 g1), (at_other k 3 g2), (at_other k 4 g3). }
    rewrite Q. match goal with |- match map to_item ?x with _ => _ end = _ => generalize x end. intros [|y l]; reflexivity. }
  unfold held_levels in It. rewrite !H in It. cbn [Nat.eqb app] in It. rewrite !app_nil_r in It.
  assert (SW : iter_levels 0 [level_items g0; level_items g1; level_items g2; level_items g3] (Some s) (no_parts act) = iter_levels 0 (map level_items [a; b; q; p]) (Some s) (no_parts act)).
  { cbn [map]. assert (K : forall g x k ls so r, Permutation g x -> in_text_order x -> iter_levels k (level_items g :: ls) so r = iter_levels k (level_items x :: ls) so r) by (intros; rewrite iter_levels_arranged, (arranged_out g x) by assumption; reflexivity).
    assert (K2 : forall k l ls ls' so r, (forall so r, iter_levels (S k) ls so r = iter_levels (S k) ls' so r) -> iter_levels k (l :: ls) so r = iter_levels k (l :: ls') so r).
    { intros k l ls ls' so r E. cbn [iter_levels]. destruct (iter_level _ _ _ _) as [o1 o2]. now rewrite E. }
    rewrite (K g0 a) by assumption. apply K2. intros. rewrite (K g1 b) by assumption. apply K2. intros. rewrite (K g2 q) by assumption. apply K2. intros. apply (K g3 p); assumption. }
  rewrite SW in It. destruct (iter_cites 1 [a; b; q; p] (no_parts act) s e out C 0 eq_refl) as (refs' & o' & args' & E & ->).
  - cbn. lia.
  - intros j J. now apply no_parts_nth.
  - repeat constructor; assumption.
  - rewrite E in It. injection It as <- <- <-. reflexivity.
Qed.

Section Total.
Variable total : Z.

(** * References *)

Lemma level_place n k w out s : level_listed n k w out -> pos_of total (w ++ s) = k -> level_at total n w out s.
Proof. intros L E. unfold level_at. now rewrite E. Qed.
Lemma reference_levels act k w out s : reference_listed act k w out -> pos_of total (w ++ s) = k ->
  exists a p q z la lp lq lz, level_at total 1 a la (p ++ q ++ z ++ s) /\ level_at total 2 p lp (q ++ z ++ s) /\ level_at total 3 q lq (z ++ s) /\ level_at total 4 z lz s /\
    a ++ p ++ q ++ z = u8 " " ++ w /\ (z = [] \/ q <> [] \/ (a = [] /\ p = [])) /\ cites 1 [la; lp; lq; lz] (no_parts act) k (k + size w) out.
Proof.
  intros (a & p & q & z & la & lp & lq & lz & W0 & W1 & W2 & W3 & E & M & C) K. exists a, p, q, z, la, lp, lq, lz.
  assert (Q : size a + size p + size q + size z = 1 + size w) by (apply (f_equal size) in E; rewrite !size_app in E; change (size (u8 " ")) with 1 in E; lia). rewrite pos_app in K.
  split; [eapply level_place; [exact W0|]; rewrite !pos_app; lia|]. split; [eapply level_place; [exact W1|]; rewrite !pos_app; lia|]. split; [eapply level_place; [exact W2|]; rewrite !pos_app; lia|].
  split; [eapply level_place; [exact W3|]; rewrite !pos_app; lia|]. auto.
Qed.
Lemma listed_evi n w out s s' : level_at total n w out s -> (forall r, ws s' <> u8 "évi" ++ r) -> w <> [] -> starts (tl w ++ s').
Proof.
  intros L H N. destruct (listed_cases _ _ _ _ _ L) as [[-> _]|(t & x & e & items & _ & W & _ & _ & _ & ->)]; [contradiction|]. cbn [app tl]. rewrite <- !app_assoc. eapply items_starts; [exact W|]. intros r. destruct t; discriminate.
Qed.
Lemma reference_starts act k w out s : reference_listed act k w out -> starts (w ++ s).
Proof.
  intros (a & p & q & z & la & lp & lq & lz & W0 & W1 & W2 & W3 & E & _).
  assert (K : forall n k out x y, level_listed n k x out -> x <> [] -> x ++ y = u8 " " ++ w -> starts (w ++ s)).
  { intros n k' o x y [[-> _]|(t & v & e & items & _ & W & _ & _ & _ & ->)] N H; [contradiction|]. injection H as <-. rewrite <- !app_assoc. eapply items_starts; [exact W|]. intros r. destruct t; discriminate. }
  destruct a as [|c a]; [|apply (K 1%nat (k - 1) la (c :: a) (p ++ q ++ z)); [exact W0|discriminate|exact E]].
  destruct p as [|c p]; [|apply (K 2%nat (k - 1 + size []) lp (c :: p) (q ++ z)); [exact W1|discriminate|exact E]].
  destruct q as [|c q]; [|apply (K 3%nat (k - 1 + size [] + size []) lq (c :: q) z); [exact W2|discriminate|exact E]].
  apply (K 4%nat _ lz z [] W3); [|now rewrite app_nil_r]. cbn [app] in E. rewrite E. discriminate.
Qed.
Theorem listed_reference_reads act k w out s : reference_listed act k w out -> pos_of total (w ++ s) = k -> silent total s ->
  exists g, g_reference_rule total (w ++ s) = Some (g, s) /\ convert_single_in_text_reference act g = Ok out.
Proof.
  intros R K S. pose proof (reference_starts act k w out s R) as B. destruct (starts_opens _ B) as [_ E].
  destruct (reference_levels act k w out s R K) as (a & b & q & p & la & lb & lq & lp & W0 & W1 & W2 & W3 & F & M & C).
  assert (NE : a ++ b ++ q ++ p <> []) by (rewrite F; discriminate).
  destruct (list_any_reads total la a lb b lq q lp p s W0 W1 W2 W3 NE M S) as (l0 & l1 & l2 & l3 & A & Y0 & Y1 & Y2 & Y3).
  replace (a ++ b ++ q ++ p ++ s) with (u8 " " ++ w ++ s) in A by (change (u8 " " ++ w ++ s) with ((u8 " " ++ w) ++ s); rewrite <- F; now rewrite <- !app_assoc).
  rewrite any_space in A. unfold g_reference_rule, reference_of. fold (any_reference total). eexists. split.
  - apply (map_yes (fun x => mk_greference (fst x) (snd x))). apply span_yes. rewrite E. exact A.
  - cbn [fst snd]. rewrite E. apply (list_converts act l0 l1 l2 l3 la lb lq lp); auto. rewrite K. replace (pos_of total s) with (k + size w); [exact C|]. rewrite pos_app in K. lia.
Qed.
Lemma converted_all l : convert_depth_first (GTree (GCompoundReference None [l]) []) = (x <- convert_single_in_text_reference None l ;; Ok (map COutgoing x)).
Proof. cbn. destruct (convert_single_in_text_reference None l) as [x|]; [|reflexivity]. cbn. now rewrite !app_nil_r. Qed.
Lemma listed_step k w out s : reference_listed None k w out -> pos_of total (w ++ s) = k -> silent total s ->
  exists t, g_any_simple_expression total (w ++ s) = Some (t, s) /\ told_tree t (map COutgoing out).
Proof.
  intros R K S. pose proof (reference_starts None k w out s R) as B. destruct (starts_opens _ B) as [_ E]. destruct (listed_reference_reads None k w out s R K S) as (g & G & C).
  exists (GTree (GCompoundReference None [g]) []). split.
  - unfold g_any_simple_expression, p_rule. rewrite E. apply or_yes, or_yes. rewrite or_no; [|apply map_no, quote_no; now apply starts_quote].
    unfold g_compound_reference, p_rule. rewrite E. rewrite or_no by (apply bind_no; now apply starts_no_act). now rewrite (bind_yes _ _ _ _ _ G).
  - unfold told_tree. rewrite converted_all, C. reflexivity.
Qed.

(** * References of an act *)

Lemma all_starts act k t refs s : all_listed act k t refs -> starts (t ++ s).
Proof. intros L. destruct L as [k w out R|k w out p t l R _ _]; [|rewrite <- app_assoc]; eapply reference_starts; exact R. Qed.
Lemma listed_length act k w out : reference_listed act k w out -> (0 < length w)%nat.
Proof.
  intros R. pose proof (reference_starts act k w out [] R) as B. rewrite app_nil_r in B. destruct w; [|cbn; lia]. exfalso.
  inversion B as [n z N _ E|n z N _ E| | |]; destruct (digits_head n N) as (c & m & -> & _); discriminate E.
Qed.
Lemma all_listed_reads act s s' k t refs : silent total s -> g_separator s = Some (tt, s') -> partless total s' -> all_listed act k t refs ->
  pos_of total (t ++ s) = k -> forall n t0, ws t0 = t ++ s -> (length t0 <= n)%nat ->
  exists gs, p_rounds n (g_listed_reference total) t0 = (gs, s') /\ flat_mapM (convert_single_in_text_reference (Some act)) gs = Ok refs.
Proof.
  intros S G P L. induction L as [k w out R|k w out p t l R Sp L IH]; intros K n t0 E N.
  - destruct (listed_reference_reads (Some act) k w out s R K S) as (g & Q & C). apply listed_length in R as R'. assert (N' : (0 < length t0)%nat) by (pose proof (ws_length t0) as H; rewrite E, app_length in H; lia).
    destruct n as [|n]; [lia|]. exists [g]. cbn [p_rounds flat_mapM]. unfold g_listed_reference at 1. rewrite <- E, reference_rule_ws in Q. rewrite (bind_yes _ _ _ _ _ Q), (bind_yes _ _ _ _ _ G). cbn [p_ret].
    assert (Z : p_rounds n (g_listed_reference total) s' = ([], s')) by (destruct n; [reflexivity|]; cbn [p_rounds]; unfold g_listed_reference; now rewrite bind_no by now apply reference_no).
    rewrite Z. split; [reflexivity|]. rewrite C. cbn. now rewrite app_nil_r.
  - pose proof (all_starts _ _ _ _ s L) as B. destruct (starts_opens _ B) as [O _]. rewrite <- !app_assoc in *.
    destruct (listed_reference_reads (Some act) k w out (p ++ t ++ s) R K (separator_silent _ _ _ Sp O)) as (g & Q & C). destruct (separator_listed p (t ++ s) Sp B) as (q & Y & W).
    apply listed_length in R as R'. pose proof (ws_length t0) as H. rewrite E, app_length in H.
    destruct n as [|n]; [lia|]. destruct (takes_separator _ _ _ Y) as (v & V). apply (f_equal (@length BinNums.N)) in V. rewrite (app_length v) in V.
    destruct (IH ltac:(rewrite !pos_app in *; lia) n q W ltac:(lia)) as (gs & D & F).
    exists (g :: gs). cbn [p_rounds flat_mapM]. unfold g_listed_reference at 1. rewrite <- E, reference_rule_ws in Q. rewrite (bind_yes _ _ _ _ _ Q), (bind_yes _ _ _ _ _ Y). cbn [p_ret]. rewrite D. split; [reflexivity|].
    rewrite C, F. reflexivity.
Qed.
Lemma listed_act_begins k w l m s : act_and_listed k w l m -> exists c t, w ++ s = c :: t /\ act_head c.
Proof. intros A. destruct A as [k a x y l A|k a x y l t refs A _]; rewrite <- app_assoc; eapply act_begins; exact A. Qed.
Lemma listed_act_opens k w l m s : act_and_listed k w l m -> opens (w ++ s).
Proof.
  intros A. destruct (listed_act_begins k w l m s A) as (c & t & -> & C). apply act_head_facts in C as (S & _ & H1 & H2 & H3 & H4). right. exists c, t.
  repeat split; auto; intros r [= E]; contradiction.
Qed.
Lemma listed_act_step k w l m s s' : act_and_listed k w l m -> pos_of total (w ++ s) = k -> free total s s' ->
  exists t r, (r = s \/ r = s') /\ g_any_simple_expression total (w ++ s) = Some (t, r) /\ told_tree t (map CAbbreviation m ++ map COutgoing l).
Proof.
  intros A K (S & M & B & G & P). destruct A as [k a x y m A|k a x y m t refs A L].
  - apply (act_step total k); [now apply ar_alone|exact K|]. repeat split; auto; apply S.
  - assert (AA : act_and_listed k (x ++ y ++ u8 " " ++ t) (mk_outgoing k (k + size x) (no_parts (Some a)) :: refs) m) by now apply al_listed.
    destruct (listed_act_begins k _ _ m s AA) as (c & u & V & C). apply act_head_facts in C as (C & Q & _). clear AA.
    assert (W : ws ((x ++ y ++ u8 " " ++ t) ++ s) = (x ++ y ++ u8 " " ++ t) ++ s) by (rewrite V; now apply ws_solid_head).
    assert (T : forall g r, g_compound_reference total ((x ++ y ++ u8 " " ++ t) ++ s) = Some (g, r) -> g_any_simple_expression total ((x ++ y ++ u8 " " ++ t) ++ s) = Some (g, r)).
    { intros g r E. unfold g_any_simple_expression, p_rule. rewrite W. apply or_yes, or_yes. rewrite or_no; [exact E|]. apply map_no, quote_no. rewrite V. now rewrite lc_solid. }
    unfold g_compound_reference, p_rule in T. rewrite W in T. pose proof (all_starts _ _ _ _ s L) as Bt. clear V W. rewrite <- !app_assoc in *.
    destruct (act_reads total a x y m (u8 " " ++ t ++ s) A (gap_space _) (starts_bracket _ Bt) (starts_no_more _ Bt)) as (g & R & I & J & N).
    destruct (all_listed_reads a s s' _ t refs S G P L) with (n := length (u8 " " ++ t ++ s)) (t0 := u8 " " ++ t ++ s) as (gs & D & F).
    + rewrite !pos_app in *. change (size (u8 " ")) with 1 in *. lia.
    + change (ws (u8 " " ++ t ++ s)) with (ws (t ++ s)). now apply starts_opens.
    + lia.
    + exists (GTree (GCompoundReference (Some g) gs) [GTree (GActReference g) []]), s'. split; [now right|]. split.
      * apply T. apply or_yes. rewrite (bind_yes _ _ _ _ _ R). rewrite (bind_yes _ _ _ gs s'); [reflexivity|]. unfold p_many. now rewrite D.
      * unfold told_tree. cbn. rewrite N, I. unfold act_outgoing. cbn. rewrite J. cbn. rewrite F. cbn. cbn [app] in K. rewrite !app_nil_r, K. do 6 f_equal. change (32%N :: t ++ s) with (u8 " " ++ t ++ s) in *. rewrite !pos_app in *. lia.
Qed.

(** * Sentences *)

Theorem cited_rest b k s l m : cited b k s l m -> pos_of total s = k -> rest total s l m /\ goes_on total b s l m.
Proof.
  intros T. induction T as [b k v W A|b k u w out s l m W S B R T IH|b k u w s l l' m m' W S B A T IH]; intros K.
  - exact (told_rest total b k v [] [] (told_words b k v W A) K).
  - rewrite !pos_app in K. destruct (IH ltac:(lia)) as [Rs G]. cbn [goes_on] in G.
    assert (P : pos_of total (w ++ s) = k + size u) by (rewrite pos_app; lia).
    destruct (listed_step _ w out s R P G) as (t & E & C). pose proof (reference_starts None _ w out s R) as Bg. destruct (starts_opens _ Bg) as [O _].
    assert (H : rest total (u ++ w ++ s) (out ++ l) m).
    { change m with ([] ++ m). apply (rest_after total u (w ++ s) t); auto; [now right|now exists s|]. apply conv_act. exact C. }
    split; [exact H|]. now apply between_on.
  - rewrite !pos_app in K. destruct (IH ltac:(lia)) as [Rs (s' & F & Rs')].
    assert (P : pos_of total (w ++ s) = k + size u) by (rewrite pos_app; lia).
    destruct (listed_act_step _ w l m s s' A P F) as (t & r & Q & E & C). pose proof (listed_act_opens _ w l m s A) as O.
    assert (H : rest total (u ++ w ++ s) (l ++ l') (m ++ m')).
    { apply (rest_after total u (w ++ s) t); auto; [now right| |now apply conv_act]. exists r. split; [exact E|]. destruct Q as [->| ->]; assumption. }
    split; [exact H|]. now apply between_on.
Qed.
End Total.
Theorem cited_found text l m : cited Nothing 0 text l m -> ordinary text -> visible text -> grammar_analyzer text = Some (mk_analysis l [] m).
Proof.
  intros T O V. destruct (cited_rest (Z.of_nat (length text)) Nothing 0 text l m T) as [(ts & r & S & E & cs & F & A & B & C) _]; [unfold pos_of; lia|].
  assert (N : ts <> []). { intros ->. inversion S; subst. apply ws_blank in E. destruct V as (c & I & V). rewrite Forall_forall in E. apply E in I. congruence. }
  unfold grammar_analyzer, analyzer_of, grammar_parse. rewrite (ordinary_start text O _ _ (steps_read _ _ _ _ S N E)). cbv iota beta. rewrite (trees_convert ts cs F). now rewrite A, B, C.
Qed.

(** * One identifier is a list *)

Lemma grouped_single x : grouped [x] [x]. Proof. apply gr_one; [discriminate|constructor]. Qed.
Lemma level_single n p w k : level_written n p w -> exists out, level_listed n k w out /\ (p = RNone /\ out = [] \/ exists x, out = [x] /\ ad_data x = p).
Proof.
  intros [[-> ->]|(t & x & L & (y & e & W & E & ->) & ->)]; [exists []; split; [now left|now left]|]. exists [mk_add t p (k + 1) (k + 1 + size y)]. split; [|right; eexists; split; reflexivity].
  right. exists t, y, e, [mk_add t p (k + 1) (k + 1 + size y)]. split; [exact L|]. split; [now constructor|]. split; [exact E|]. split; [reflexivity|]. split; [|reflexivity].
  exists [mk_add t p (k + 1) (k + 1 + size y)]. split; [|split; [reflexivity|repeat constructor]]. replace (filter is_one _ ++ _) with [mk_add t p (k + 1) (k + 1 + size y)]; [apply grouped_single|]. destruct W; reflexivity.
Qed.
Theorem reference_single r k w : reference_written r w -> reference_listed (r_act r) k w [mk_outgoing k (k + size w) r].
Proof.
  intros (a & p & q & s & W0 & W1 & W2 & W3 & E & M). destruct (level_single _ _ _ (k - 1) W0) as (la & L0 & D0). destruct (level_single _ _ _ (k - 1 + size a) W1) as (lp & L1 & D1).
  destruct (level_single _ _ _ (k - 1 + size a + size p) W2) as (lq & L2 & D2). destruct (level_single _ _ _ (k - 1 + size a + size p + size q) W3) as (ls & L3 & D3).
  exists a, p, q, s, la, lp, lq, ls. repeat (split; [assumption|]). unfold no_parts.
  destruct r as [act ra rp rq rs]. cbn [r_act r_article r_paragraph r_point r_subpoint] in *.
  destruct D0 as [[-> ->]|(x0 & -> & <-)]; [apply ci_none|apply ci_last; cbn [with_part r_act r_article r_paragraph r_point r_subpoint]];
  (destruct D1 as [[-> ->]|(x1 & -> & <-)]; [apply ci_none|apply ci_last; cbn [with_part r_act r_article r_paragraph r_point r_subpoint]]);
  (destruct D2 as [[-> ->]|(x2 & -> & <-)]; [apply ci_none|apply ci_last; cbn [with_part r_act r_article r_paragraph r_point r_subpoint]]);
  (destruct D3 as [[-> ->]|(x3 & -> & <-)]; [apply ci_none|apply ci_last; cbn [with_part r_act r_article r_paragraph r_point r_subpoint]]); apply ci_end.
Qed.
Lemma listed_single act k t refs : listed_written act k t refs -> all_listed act k t refs.
Proof.
  intros L. induction L as [k r w A R|k r w p t l A R Sp L IH].
  - apply al_last. rewrite <- A. now apply reference_single.
  - change (mk_outgoing k (k + size w) r :: l) with ([mk_outgoing k (k + size w) r] ++ l). apply al_more; auto. rewrite <- A. now apply reference_single.
Qed.
Theorem told_cited b k s l m : told b k s l m -> cited b k s l m.
Proof.
  intros T. induction T as [b k v W A|b k u r w s l m W S B A R T IH|b k u w s l l' m m' W S B A T IH]; [now apply cited_words| |].
  - change (mk_outgoing (k + size u) (k + size u + size w) r :: l) with ([mk_outgoing (k + size u) (k + size u + size w) r] ++ l). apply cited_reference; auto. rewrite <- A. now apply reference_single.
  - apply cited_act; auto. destruct A as [k' a x y m A|k' a x y m t refs A L]; [now apply al_alone|apply al_listed; [exact A|now apply listed_single]].
Qed.
