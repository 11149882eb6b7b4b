From Coq Require Import Lia Permutation Sorted.
From Coq Require Import ZifyBool ZifyNat ZifyN.
From Verif Require Import PyBase PyBaseFacts NumModel NumSpec IdModel IdSpec IdProofs LineModel LineSpec LineProofs DateModel RefModel RefSpec RefProofs RefProofs2 RefProofs3
  TreeModel SemModel SemProofs6 GramModel GramSpec GramProofs GramProofs2.
Local Open Scope Z_scope.

(** * References of the parse tree *)

Lemma additions_real r : Forall real (additions_of r).
Proof.
  apply Forall_forall. intros x Hx. unfold additions_of in Hx. apply in_flat_map in Hx as (p & _ & Hx).
  unfold additions_of_part in Hx. apply in_app_iff in Hx as [Hx|Hx]; apply in_map_iff in Hx as (y & <- & _); discriminate.
Qed.
Lemma add_all_app l1 : forall c l2, add_all c (l1 ++ l2) = (c' <- add_all c l1 ;; add_all c' l2).
Proof.
  induction l1 as [|x l1 IH]; intros c l2; [reflexivity|]. cbn [app add_all]. destruct (add_item c _ _ _ _); [|reflexivity]. cbn [bind]. apply IH.
Qed.
Lemma add_singles_all t l : forall c, add_singles c t l =
  add_all c (map (fun s => mk_add t (RId (concat (gs_id s))) (fst (gs_span s)) (snd (gs_span s))) l).
Proof. induction l as [|x l IH]; intros c; [reflexivity|]. cbn. destruct (add_item c _ _ _ _); [apply IH|reflexivity]. Qed.
Lemma add_ranges_all t l : forall c, add_ranges c t l =
  add_all c (map (fun r => mk_add t (RRange (concat (gg_start r)) (concat (gg_end r))) (fst (gg_span r)) (snd (gg_span r))) l).
Proof. induction l as [|x l IH]; intros c; [reflexivity|]. cbn. destruct (add_item c _ _ _ _); [apply IH|reflexivity]. Qed.
Lemma fill_all parts : forall c, fill_reference_collector parts c = add_all c (flat_map additions_of_part parts).
Proof.
  induction parts as [|p parts IH]; intros c; [reflexivity|]. cbn [fill_reference_collector flat_map].
  rewrite add_singles_all. unfold additions_of_part at 1. rewrite <- app_assoc, add_all_app.
  destruct (add_all c _); [|reflexivity]. cbn [bind]. rewrite add_ranges_all, add_all_app. destruct (add_all _ _); [|reflexivity]. cbn [bind]. apply IH.
Qed.
Lemma convert_single_collects act r l : convert_single_in_text_reference act r = Ok l ->
  exists c, add_all (new_collector act) (additions_of r) = Ok c /\ l = collector_iter c (Some (fst (gr_span r))) (snd (gr_span r)).
Proof.
  unfold convert_single_in_text_reference. rewrite fill_all. intros H. apply bind_ok in H as (c & A & H). injection H as <-. exists c. auto.
Qed.
Lemma collector_iter_nonempty c so eo : so <> None -> collector_iter c so eo <> [].
Proof.
  intros N. unfold collector_iter. match goal with |- context [iter_levels 0 ?lv so ?a] => pose proof (iter_override lv 0 so a ltac:(now left)) as I; destruct (iter_levels 0 lv so a) as [[out o] args] end.
  cbn [fst snd] in I. destruct o; [|contradiction]. now destruct out.
Qed.
Lemma convert_single_act act r l : convert_single_in_text_reference act r = Ok l -> Forall (fun o => r_act (or_reference o) = act) l.
Proof.
  intros H. apply convert_single_collects in H as (c & A & ->). apply Forall_forall. intros o Ho.
  eapply collector_sound in A as [A _]; [exact A|apply additions_real|exact Ho].
Qed.

(** * Chains *)

Lemma relative_completed own last : completed own last (relative_to own last).
Proof.
  split; [intros ->; now destruct last|]. intros i F j. rewrite (relative_to_levels own last i F j).
  destruct (Nat.ltb_spec j i), (Nat.leb_spec i j); try lia; reflexivity.
Qed.
Lemma relative_chain_chained l : forall last l' final, relative_chain last l = (l', final) -> chained last l l'.
Proof.
  induction l as [|o l IH]; intros last l' final H; cbn [relative_chain] in H; [injection H as <- _; constructor|].
  destruct (relative_chain (relative_to (or_reference o) last) l) as [rest fin] eqn:E. injection H as <- _. unfold evolve_reference.
  constructor; [apply relative_completed|]. eapply IH; eauto.
Qed.
Lemma relative_chain_app l : forall last m l' fin m' fin', relative_chain last l = (l', fin) -> relative_chain fin m = (m', fin') ->
  relative_chain last (l ++ m) = (l' ++ m', fin').
Proof.
  induction l as [|o l IH]; intros last m l' fin m' fin' H1 H2; cbn [relative_chain app] in *.
  - injection H1 as <- <-. exact H2.
  - destruct (relative_chain (relative_to (or_reference o) last) l) as [rest f] eqn:E. injection H1 as <- <-.
    rewrite (IH _ _ _ _ _ _ E H2). reflexivity.
Qed.
Lemma multiple_chain refs : forall last l, convert_multiple_loop last refs = Ok l ->
  exists own fin, flat_mapM (convert_single_in_text_reference None) refs = Ok own /\ relative_chain last own = (l, fin).
Proof.
  induction refs as [|r refs IH]; intros last l H; cbn [convert_multiple_loop flat_mapM] in *.
  - injection H as <-. exists [], last. auto.
  - apply bind_ok in H as (x & X & H). rewrite X. cbn [bind]. destruct (relative_chain last x) as [out la] eqn:E.
    apply bind_ok in H as (out' & Y & H). injection H as <-. apply IH in Y as (own & fin & Y1 & Y2). rewrite Y1. cbn [bind].
    exists (x ++ own), fin. split; [reflexivity|]. eapply relative_chain_app; eauto.
Qed.
Theorem multiple_chained act refs l : convert_multiple_in_text_references act refs = Ok l ->
  exists own, flat_mapM (convert_single_in_text_reference None) refs = Ok own /\ chained (no_parts act) own l.
Proof.
  intros H. apply multiple_chain in H as (own & fin & H1 & H2). exists own. split; [exact H1|]. eapply relative_chain_chained; eauto.
Qed.

Lemma flat_mapM_Forall {A B} (P : B -> Prop) (f : A -> res (list B)) l out : flat_mapM f l = Ok out ->
  (forall x y, In x l -> f x = Ok y -> Forall P y) -> Forall P out.
Proof.
  revert out. induction l as [|x l IH]; intros out H Q; cbn [flat_mapM] in H; [injection H as <-; constructor|].
  apply bind_ok in H as (y & Y & H). apply bind_ok in H as (r & R & H). injection H as <-.
  apply Forall_app. split; [eapply Q; eauto; now left|]. apply IH; [exact R|]. intros. eapply Q; eauto. now right.
Qed.

Lemma completed_act own last r : r_act own = None -> completed own last r -> r_act r = r_act last.
Proof.
  intros N [C1 C2]. destruct own as [a p1 p2 p3 p4]. cbn in N. subst a.
  assert (D : mk_ref None p1 p2 p3 p4 = EMPTY_REF \/ exists i, (1 <= i)%nat /\ first_level (mk_ref None p1 p2 p3 p4) i).
  { destruct p1; [|right; exists 1%nat|right; exists 1%nat];
      [destruct p2; [|right; exists 2%nat|right; exists 2%nat];
        [destruct p3; [|right; exists 3%nat|right; exists 3%nat];
          [destruct p4; [now left|right; exists 4%nat|right; exists 4%nat]|..]|..]|..];
      (split; [lia|]; split; [lia|]; split; [discriminate|]; intros j Hj; destruct j as [|[|[|[|j]]]]; reflexivity || lia). }
  destruct D as [D|(i & Hi & D)]; [now rewrite (C1 D)|].
  specialize (C2 i D 0%nat). destruct (Nat.leb_spec i 0); [lia|]. unfold nth_part in C2. cbn in C2.
  destruct r as [[x|] ? ? ? ?], last as [[y|] ? ? ? ?]; cbn in *; congruence.
Qed.
Lemma chained_act l : forall last l', chained last l l' -> Forall (fun o => r_act (or_reference o) = None) l ->
  Forall (fun o => r_act (or_reference o) = r_act last) l'.
Proof.
  intros last l' H. induction H as [last|last o r l l' C H IH]; intros F; [constructor|].
  apply Forall_cons_iff in F as [F1 F]. pose proof (completed_act _ _ _ F1 C) as E. constructor; [exact E|].
  rewrite <- E. auto.
Qed.
Lemma chained_spans last l l' : chained last l l' -> map or_start l' = map or_start l /\ map or_end l' = map or_end l.
Proof. induction 1 as [|last o r l l' C H [IH1 IH2]]; [auto|]. cbn. now rewrite IH1, IH2. Qed.

Theorem multiple_act act refs l : convert_multiple_in_text_references act refs = Ok l -> Forall (fun o => r_act (or_reference o) = act) l.
Proof.
  intros H. apply multiple_chained in H as (own & H & C).
  apply (chained_act _ _ _ C). eapply flat_mapM_Forall; [exact H|]. intros x y _. apply convert_single_act.
Qed.

(** * Quotes *)

Lemma slice_inner {A} (a : A) t b : py_slice 1 (-1) (a :: t ++ [b]) = t.
Proof.
  assert (E : Z.of_nat (List.length (a :: t ++ [b])) = Z.of_nat (List.length t) + 2) by (cbn; rewrite app_length; cbn; lia).
  unfold py_slice. replace (norm_bound _ 1) with 1%nat by (unfold norm_bound; replace (1 <? 0) with false by reflexivity; lia).
  replace (norm_bound _ (-1)) with (S (List.length t)) by (unfold norm_bound; replace (-1 <? 0) with true by reflexivity; lia).
  unfold slice_nat. cbn [skipn]. replace (S (List.length t) - 1)%nat with (List.length t) by lia.
  now rewrite firstn_app, firstn_all, Nat.sub_diag, app_nil_r.
Qed.
Lemma quote_ok q s : convert_quote_to_string q = Ok s <-> quote_says q s.
Proof.
  split.
  - unfold convert_quote_to_string. destruct q as [|f q]; [discriminate|]. intros H.
    apply bind_ok in H as (u & F & H). apply bind_ok in H as (l & L & H). apply bind_ok in H as (v & G & H).
    assert (Ef : f = Leaf (u8 "„")).
    { destruct f as [x|x]; [|discriminate]. destruct (str_eqb x _) eqn:E; [|discriminate]. apply str_eqb_eq in E. now rewrite E. }
    assert (El : l = Leaf (u8 "”")).
    { destruct l as [x|x]; [|discriminate]. destruct (str_eqb x _) eqn:E; [|discriminate]. apply str_eqb_eq in E. now rewrite E. }
    subst f l. destruct (rev q) as [|x r] eqn:R.
    + exfalso. assert (q = []) by (rewrite <- (rev_involutive q), R; reflexivity). subst q. vm_compute in L. discriminate.
    + assert (Eq : q = rev r ++ [x]) by (rewrite <- (rev_involutive q), R; reflexivity). rewrite Eq in L, H.
      rewrite app_comm_cons, last_chr_snoc in L. injection L as ->. rewrite slice_inner, flatten_spec in H. cbn [bind] in H. injection H as <-.
      exists (rev r). now rewrite Eq.
  - intros (inner & -> & ->). unfold convert_quote_to_string. replace (str_eqb (u8 "„") (u8 "„")) with true by reflexivity. cbn [assert_ bind].
    assert (L : last_chr (Leaf (u8 "„") :: inner ++ [Leaf (u8 "”")]) = Ok (Leaf (u8 "”"))) by (rewrite app_comm_cons; apply last_chr_snoc).
    rewrite L. cbn [bind]. replace (str_eqb (u8 "”") (u8 "”")) with true by reflexivity. cbn [assert_ bind].
    now rewrite slice_inner, flatten_spec.
Qed.

(** * Depth first *)

Lemma flat_mapM_app {A B} (f : A -> res (list B)) l m : flat_mapM f (l ++ m) = (x <- flat_mapM f l ;; y <- flat_mapM f m ;; Ok (x ++ y)).
Proof.
  induction l as [|a l IH]; cbn [app flat_mapM].
  - destruct (flat_mapM f m); reflexivity.
  - destruct (f a); [|reflexivity]. cbn [bind]. rewrite IH. destruct (flat_mapM f l); [|reflexivity]. cbn [bind].
    destruct (flat_mapM f m); [|reflexivity]. cbn [bind]. now rewrite app_assoc.
Qed.
Fixpoint g_tree_induct (P : g_tree -> Prop) (H : forall n cs, Forall P cs -> P (GTree n cs)) (t : g_tree) : P t :=
  match t with
  | GTree n cs => H n cs ((fix go (l : list g_tree) : Forall P l := match l with [] => Forall_nil P | x :: r => Forall_cons x (g_tree_induct P H x) (go r) end) cs)
  end.
Theorem depth_first t : convert_depth_first t = flat_mapM convert_single_node (post_order t).
Proof.
  induction t as [n cs IH] using g_tree_induct. cbn [convert_depth_first post_order]. rewrite flat_mapM_app.
  assert (E : (fix go (cs : list g_tree) : res (list conversion) :=
              match cs with [] => Ok [] | c :: r => x <- convert_depth_first c ;; y <- go r ;; Ok (x ++ y) end) cs
            = flat_mapM convert_single_node (flat_map post_order cs)).
  { induction IH as [|c cs Hc F IHc]; [reflexivity|]. cbn [flat_map]. rewrite flat_mapM_app, Hc. destruct (flat_mapM _ (post_order c)); [|reflexivity].
    cbn [bind]. rewrite IHc. reflexivity. }
  rewrite E. destruct (flat_mapM _ (flat_map post_order cs)); [|reflexivity]. cbn [bind flat_mapM].
  destruct (convert_single_node n); [|reflexivity]. cbn [bind]. now rewrite app_nil_r.
Qed.

(** * Spans of all references *)

Definition positive (o : outgoing_reference) : Prop := or_start o < or_end o.
Lemma in_order_positive s e l : in_order s e l -> Forall positive l.
Proof. induction 1; constructor; auto. Qed.
Lemma single_positive act r l : reference_ok r -> convert_single_in_text_reference act r = Ok l -> Forall positive l.
Proof.
  intros [S W] H. apply convert_single_collects in H as (c & A & ->).
  destruct (collector_spans act _ c _ _ (additions_real r) A S W) as [O _]. eapply in_order_positive; eauto.
Qed.
Lemma flat_positive act refs l : Forall reference_ok refs -> flat_mapM (convert_single_in_text_reference act) refs = Ok l -> Forall positive l.
Proof. intros F H. eapply flat_mapM_Forall; [exact H|]. intros x y Hx. rewrite Forall_forall in F. apply single_positive. auto. Qed.
Lemma multiple_positive act refs l : Forall reference_ok refs -> convert_multiple_in_text_references act refs = Ok l -> Forall positive l.
Proof.
  intros F H. apply multiple_chained in H as (own & H & C). apply flat_positive in H; auto.
  clear -H C. induction C as [|last o r l l' C H' IH]; [constructor|]. apply Forall_cons_iff in H as [H1 H]. constructor; auto.
Qed.
Lemma act_positive a x o : act_ref_ok a -> act_outgoing a x = Ok o -> positive o.
Proof.
  intros [H1 H2] H. unfold act_outgoing in H. apply bind_ok in H as (p & P & H). injection H as <-. unfold positive. cbn.
  unfold get_act_id_pos in P. destruct (ga_abbreviation a) as [[s sp]|] eqn:E1.
  - injection P as <-. exact (H2 s sp eq_refl).
  - destruct (ga_act_id a) as [[[y n] sp]|] eqn:E2; [|discriminate]. injection P as <-. exact (H1 y n sp eq_refl).
Qed.
Lemma potential_positive act r o : opt_ok reference_ok r -> convert_potential_in_text_reference act r = Ok (Some o) -> positive o.
Proof.
  intros P H. unfold convert_potential_in_text_reference in H. destruct r as [r|]; [|discriminate]. apply bind_ok in H as (l & L & H).
  destruct l as [|x [|y l]]; try discriminate. injection H as <-. apply single_positive in L; [|now apply P]. now apply Forall_cons_iff in L as [L _].
Qed.

Definition outgoing_positive (c : conversion) : Prop := match c with COutgoing o => positive o | _ => True end.
Lemma semantics_positive r l : semantics r = Ok l -> Forall outgoing_positive l.
Proof.
  intros H. apply bind_ok in H as (x & _ & H). injection H as <-. apply Forall_forall. intros c Hc. apply in_map_iff in Hc as (y & <- & _). exact I.
Qed.
Lemma outgoings_positive r l : outgoings r = Ok l -> (forall x, r = Ok x -> Forall positive x) -> Forall outgoing_positive l.
Proof.
  intros H P. apply bind_ok in H as (x & E & H). injection H as <-. apply Forall_map. specialize (P x E). exact P.
Qed.
Lemma both_positive a b l : both a b = Ok l -> (forall x, a = Ok x -> Forall outgoing_positive x) ->
  (forall x, b = Ok x -> Forall outgoing_positive x) -> Forall outgoing_positive l.
Proof.
  intros H P Q. apply bind_ok in H as (x & X & H). apply bind_ok in H as (y & Y & H). injection H as <-. apply Forall_app. auto.
Qed.
Lemma act_and_references_positive a refs l : act_ref_ok a -> Forall reference_ok refs -> act_and_references a refs = Ok l -> Forall positive l.
Proof.
  intros A R H. apply bind_ok in H as (x & _ & H). apply bind_ok in H as (o & O & H). apply bind_ok in H as (m & M & H). injection H as <-.
  constructor; [eapply act_positive; eauto|eapply multiple_positive; eauto].
Qed.

Lemma node_positive n l : node_ok n -> convert_single_node n = Ok l -> Forall outgoing_positive l.
Proof.
  destruct n; cbn [node_ok convert_single_node]; intros N H.
  - destruct N as [A R]. eapply outgoings_positive; [exact H|]. intros x X. unfold compound_to_outgoing in X. destruct act_reference as [a|].
    + apply bind_ok in X as (i & _ & X). apply bind_ok in X as (o & O & X). apply bind_ok in X as (m & M & X). injection X as <-.
      constructor; [exact (act_positive _ _ _ (A a eq_refl) O)|eapply flat_positive; eauto].
    + eapply flat_positive; eauto.
  - apply bind_ok in H as (x & _ & H). injection H as <-. apply Forall_forall. intros c Hc. apply in_map_iff in Hc as (y & <- & _). exact I.
  - destruct N as (A & R1 & R2). eapply both_positive; [exact H| |intros; eapply semantics_positive; eauto]. intros x X. eapply outgoings_positive; [exact X|].
    clear x X. intros x X. unfold block_to_outgoing in X.
    apply bind_ok in X as (i & _ & X). apply bind_ok in X as (o & O & X). apply bind_ok in X as (m & M & X). apply bind_ok in X as (k & K & X). injection X as <-.
    constructor; [eapply act_positive; eauto|]. apply Forall_app. split.
    + destruct m; repeat constructor. exact (potential_positive _ _ _ R1 M).
    + destruct m, k as [k|]; repeat constructor; unfold positive; cbn; exact (potential_positive _ _ _ R2 K).
  - eapply semantics_positive; eauto.
  - eapply semantics_positive; eauto.
  - destruct N as [R1 R2]. eapply both_positive; [exact H|intros; eapply semantics_positive; eauto|]. intros x X. eapply outgoings_positive; [exact X|].
    clear x X. intros x X. apply bind_ok in X as (y & Y & X). apply bind_ok in X as (z & Z & X). injection X as <-. apply Forall_app.
    split; [exact (multiple_positive _ _ _ R1 Y)|exact (multiple_positive _ _ _ R2 Z)].
  - destruct N as [A R]. eapply both_positive; [exact H|intros; eapply semantics_positive; eauto|]. intros x X. eapply outgoings_positive; [exact X|].
    intros y Y. eapply act_and_references_positive; eauto.
  - destruct N as [A R]. eapply both_positive; [exact H|intros; eapply semantics_positive; eauto|]. intros x X. eapply outgoings_positive; [exact X|].
    clear x X. intros x X. apply bind_ok in X as (i & _ & X). apply bind_ok in X as (o & O & X). injection X as <-.
    constructor; [eapply act_positive; eauto|]. constructor; [exact R|constructor].
  - destruct N as [A R]. eapply both_positive; [exact H|intros; eapply semantics_positive; eauto|]. intros x X. eapply outgoings_positive; [exact X|].
    intros y Y. eapply act_and_references_positive; eauto.
  - eapply both_positive; [exact H|intros; eapply semantics_positive; eauto|]. intros x X. eapply outgoings_positive; [exact X|].
    clear x X. intros x X. apply bind_ok in X as (i & _ & X). apply bind_ok in X as (o & O & X). injection X as <-.
    constructor; [eapply act_positive; eauto|constructor].
  - injection H as <-. constructor.
Qed.

Theorem analyzer_sane parse : (forall s t, parse s = Some t -> Forall node_ok (post_order t)) -> sane_spans (analyzer_of parse).
Proof.
  intros P s a r H I. unfold analyzer_of in H. destruct (parse s) as [t|] eqn:E; [|discriminate].
  destruct (convert_depth_first t) as [l|] eqn:D; [|discriminate]. injection H as <-. cbn [an_references] in I.
  rewrite depth_first in D. specialize (P s t E).
  assert (F : Forall outgoing_positive l).
  { eapply flat_mapM_Forall; [exact D|]. intros x y Hx. apply node_positive. rewrite Forall_forall in P. auto. }
  unfold all_references in I. apply in_flat_map in I as (c & C & I). rewrite Forall_forall in F. specialize (F c C).
  destruct c; cbn in I; [destruct I as [<-|[]]; exact F|destruct I|destruct I].
Qed.

(** * Amended and inserted *)

Fixpoint zipM {A B C} (f : A -> B -> res C) (l : list A) (m : list B) : res (list C) :=
  match l, m with
  | x :: l, y :: m => z <- f x y ;; r <- zipM f l m ;; Ok (z :: r)
  | _, _ => Ok []
  end.
Lemma make_range_zip f l : make_range f l =
  (zs <- zipM make_range_part (tl (components f)) (tl (components l)) ;;
   Ok (mk_ref (opt_str_or (r_act f) (r_act l)) (nth 0 zs RNone) (nth 1 zs RNone) (nth 2 zs RNone) (nth 3 zs RNone))).
Proof.
  unfold make_range, components. cbn [tl zipM].
  destruct (make_range_part (r_article f) (r_article l)); [|reflexivity]. cbn [bind].
  destruct (make_range_part (r_paragraph f) (r_paragraph l)); [|reflexivity]. cbn [bind].
  destruct (make_range_part (r_point f) (r_point l)); [|reflexivity]. cbn [bind].
  destruct (make_range_part (r_subpoint f) (r_subpoint l)); reflexivity.
Qed.
Lemma range_part_same s : make_range_part (RId s) (RId s) = Ok (RId s).
Proof. cbn. now rewrite str_eqb_refl. Qed.
Lemma range_part_less a b : idlt a b -> make_range_part (RId a) (RId b) = Ok (RRange a b).
Proof.
  intros H. cbn. destruct (str_eqb a b) eqn:E; [apply str_eqb_eq in E; subst; now apply identifier_less_irrefl in H|]. rewrite H. reflexivity.
Qed.
Lemma zip_none xs : forall ys, Forall (eq RNone) xs -> Forall (eq RNone) ys -> length xs = length ys -> zipM make_range_part xs ys = Ok xs.
Proof.
  induction xs as [|x xs IH]; intros [|y ys] Fx Fy L; try discriminate; [reflexivity|].
  apply Forall_cons_iff in Fx as [<- Fx]. apply Forall_cons_iff in Fy as [<- Fy]. cbn. rewrite IH by auto. reflexivity.
Qed.
Lemma zip_interval ids lo hi : forall xs ys, padded xs (ids ++ [lo]) -> padded ys (ids ++ [hi]) -> length xs = length ys -> idlt lo hi ->
  exists zs, zipM make_range_part xs ys = Ok zs /\ length zs = length xs /\ denotes_interval zs ids lo hi.
Proof.
  induction ids as [|i ids IH]; intros [|x xs] [|y ys] P Q L H; try discriminate;
    try (exfalso; apply (padded_nil_cons _ _ P)); cbn [app] in P, Q; apply padded_cons in P as [-> P]; apply padded_cons in Q as [-> Q].
  - apply padded_nil in P. apply padded_nil in Q. cbn [zipM]. rewrite range_part_less by exact H. cbn [bind].
    rewrite (zip_none xs ys) by auto. cbn [bind]. eexists. split; [reflexivity|]. split; [reflexivity|]. apply (di_range [] lo hi). exact P.
  - cbn [zipM]. rewrite range_part_same. cbn [bind]. destruct (IH xs ys P Q ltac:(auto) H) as (zs & Z1 & Z2 & Z3). rewrite Z1. cbn [bind].
    eexists. split; [reflexivity|]. split; [cbn; now rewrite Z2|]. inversion Z3; subst.
    + exfalso. now apply identifier_less_irrefl in H.
    + apply (di_range (i :: ids)). assumption.
Qed.

(* the reference that make_range builds from the ends of two intervals at the same place *)
Lemma make_range_interval f l ids lo hi : r_act f = r_act l -> padded (levels f) (ids ++ [lo]) -> padded (levels l) (ids ++ [hi]) -> idlt lo hi ->
  exists u, make_range f l = Ok u /\ r_act u = r_act f /\ denotes_interval (levels u) ids lo hi.
Proof.
  intros A P Q H. rewrite make_range_zip. destruct f as [fa f1 f2 f3 f4], l as [la l1 l2 l3 l4]. cbn [r_act] in *. subst la.
  assert (O : opt_str_or fa fa = fa) by (destruct fa as [[|]|]; reflexivity). rewrite O. clear O.
  unfold levels in P, Q. cbn [r_act] in P, Q. destruct fa as [a|].
  - destruct (zip_interval ids lo hi _ _ P Q eq_refl H) as (zs & Z1 & Z2 & Z3). unfold components in *. cbn [act_part r_act r_article r_paragraph r_point r_subpoint tl] in *.
    cbn [zipM] in Z1. rewrite range_part_same in Z1. cbn [bind] in Z1.
    destruct zs as [|z0 [|z1 [|z2 [|z3 [|z4 [|z5 zs]]]]]]; try discriminate.
    match type of Z1 with (r <- ?e ;; _) = _ => change (zipM make_range_part [f1; f2; f3; f4] [l1; l2; l3; l4]) with e end.
    apply bind_ok in Z1 as (r & R & Z1). injection Z1 as <- ->. cbn [zipM] in R. rewrite R. cbn [bind].
    eexists. split; [reflexivity|]. split; [reflexivity|]. exact Z3.
  - destruct (zip_interval ids lo hi _ _ P Q eq_refl H) as (zs & Z1 & Z2 & Z3). rewrite Z1. cbn [bind].
    destruct zs as [|z1 [|z2 [|z3 [|z4 [|z5 zs]]]]]; try discriminate.
    eexists. split; [reflexivity|]. split; [reflexivity|]. exact Z3.
Qed.

Lemma relative_act r a : r_act (relative_to (without_act r) a) = r_act a.
Proof. reflexivity. Qed.

Lemma before_lt a b : canonical_id a -> canonical_id b -> part_before (RId a) (RId b) <-> idlt a b.
Proof. intros [A _] [B _]. now apply part_before_ids. Qed.

Theorem union_follows amended inserted ids lo hi lo' hi' :
  let ins := relative_to (without_act inserted) amended in
  canonical amended -> canonical ins ->
  denotes_interval (levels amended) ids lo hi -> not_after lo hi ->
  denotes_interval (levels ins) ids lo' hi' -> not_after lo' hi' ->
  part_before (RId hi) (RId lo') ->
  exists u, convert_amendment_and_insertion amended inserted = Ok (BlockAmendment (ARef u) false) /\
    r_act u = r_act amended /\ denotes_interval (levels u) ids lo hi'.
Proof.
  intros ins CA CI DA NA DI NI B.
  destruct (interval_canonical _ _ _ _ CA DA) as [K1 K2]. destruct (interval_canonical _ _ _ _ CI DI) as [K3 K4].
  apply Forall_app in K1 as [Kids K1]. apply Forall_cons_iff in K1 as [K1 _]. apply Forall_app in K2 as [_ K2]. apply Forall_cons_iff in K2 as [K2 _].
  apply Forall_app in K3 as [_ K3]. apply Forall_cons_iff in K3 as [K3 _]. apply Forall_app in K4 as [_ K4]. apply Forall_cons_iff in K4 as [K4 _].
  apply before_lt in B; auto. apply not_after_canonical in NA as NA'; auto. apply not_after_canonical in NI as NI'; auto.
  assert (Lt : idlt lo hi').
  { unfold idlt in *. destruct NA' as [NA'| ->], NI' as [NI'| <-]; eauto using identifier_less_trans. }
  destruct (interval_padded _ _ _ _ DA) as [PA1 _]. destruct (interval_padded _ _ _ _ DI) as [PI1 PI2].
  unfold convert_amendment_and_insertion. fold ins.
  (* the first inserted one is not inside *)
  assert (SF : simple_reference (first_in_range ins)).
  { split.
    - unfold canonical in *. rewrite first_components. apply Forall_map. eapply Forall_impl; [|exact CI]. intros [|s|x y]; cbn; tauto.
    - exists ids, lo', lo'. split; [|apply not_after_canonical; auto]. rewrite first_levels. destruct PI1 as (t & T & E). rewrite E, map_app, <- app_assoc. cbn. now constructor. }
  destruct (contains_covers amended (first_in_range ins)) as (r & E & R).
  { split; [exact CA|]. exists ids, lo, hi. auto. }
  { exact SF. }
  { cbn. tauto. }
  rewrite E. cbn [bind]. assert (r = false).
  { destruct r; [|reflexivity]. exfalso. pose proof (proj1 R eq_refl (ids ++ [lo'])) as C.
    assert (Cp : canonical_path (ids ++ [lo'])) by (apply Forall_app; auto). specialize (C Cp).
    destruct C as (ids2 & lo2 & hi2 & D2 & x & below & E2 & B2).
    - exists ids, lo', lo'. split.
      + rewrite first_levels. destruct PI1 as (t & T & E'). rewrite E', map_app, <- app_assoc. cbn. now constructor.
      + exists lo', []. split; [reflexivity|]. split; apply not_after_canonical; auto.
    - destruct (interval_unique _ _ _ _ _ _ _ DA D2) as (<- & <- & <-). apply app_inv_head in E2. injection E2 as <- <-.
      destruct B2 as [_ B2]. apply not_after_canonical in B2; auto. destruct B2 as [B2| ->].
      + exact (identifier_less_asym _ _ B B2).
      + now apply identifier_less_irrefl in B. }
  subst r. cbn [bind].
  destruct (make_range_interval (first_in_range amended) (last_in_range ins) ids lo hi') as (u & U1 & U2 & U3).
  - reflexivity.
  - rewrite first_levels. exact PA1.
  - rewrite last_levels. exact PI2.
  - exact Lt.
  - rewrite U1. cbn [bind]. exists u. split; [reflexivity|]. split; [exact U2|exact U3].
Qed.
Theorem union_covers amended inserted ids lo hi lo' hi' :
  let ins := relative_to (without_act inserted) amended in
  canonical amended -> canonical ins ->
  denotes_interval (levels amended) ids lo hi -> not_after lo hi ->
  denotes_interval (levels ins) ids lo' hi' -> not_after lo' hi' ->
  part_before (RId hi) (RId lo') ->
  exists u, convert_amendment_and_insertion amended inserted = Ok (BlockAmendment (ARef u) false) /\
    forall p, canonical_path p -> covers amended p \/ covers ins p -> covers u p.
Proof.
  intros ins CA CI DA NA DI NI B. destruct (union_follows amended inserted ids lo hi lo' hi' CA CI DA NA DI NI B) as (u & U1 & U2 & U3).
  destruct (interval_canonical _ _ _ _ CA DA) as [K1 K2]. destruct (interval_canonical _ _ _ _ CI DI) as [K3 K4].
  apply Forall_app in K1 as [Kids K1]. apply Forall_cons_iff in K1 as [K1 _]. apply Forall_app in K2 as [_ K2]. apply Forall_cons_iff in K2 as [K2 _].
  apply Forall_app in K3 as [_ K3]. apply Forall_cons_iff in K3 as [K3 _]. apply Forall_app in K4 as [_ K4]. apply Forall_cons_iff in K4 as [K4 _].
  apply before_lt in B; auto.
  exists u. split; [exact U1|]. intros p Cp H. exists ids, lo, hi'. split; [exact U3|].
  destruct H as [(ids2 & lo2 & hi2 & D2 & x & below & E2 & B2)|(ids2 & lo2 & hi2 & D2 & x & below & E2 & B2)].
  - destruct (interval_unique _ _ _ _ _ _ _ DA D2) as (<- & <- & <-). exists x, below. split; [exact E2|].
    assert (Cx : canonical_id x) by (rewrite E2 in Cp; apply Forall_app in Cp as [_ Cp]; now apply Forall_cons_iff in Cp as [Cp _]).
    destruct B2 as [B1 B2]. split; [exact B1|]. apply not_after_canonical in B2; auto. apply not_after_canonical in NI; auto. apply not_after_canonical; auto. left. unfold idlt in *.
    destruct B2 as [B2| ->], NI as [NI| <-]; eauto using identifier_less_trans.
  - destruct (interval_unique _ _ _ _ _ _ _ DI D2) as (<- & <- & <-). exists x, below. split; [exact E2|].
    assert (Cx : canonical_id x) by (rewrite E2 in Cp; apply Forall_app in Cp as [_ Cp]; now apply Forall_cons_iff in Cp as [Cp _]).
    destruct B2 as [B1 B2]. split; [|exact B2]. apply not_after_canonical in B1; auto. apply not_after_canonical in NA; auto. apply not_after_canonical; auto. left. unfold idlt in *.
    destruct B1 as [B1| <-], NA as [NA| ->]; eauto using identifier_less_trans.
Qed.
(* the other case: what is inserted starts inside *)
Theorem union_inside amended inserted r : let ins := relative_to (without_act inserted) amended in
  contains amended (first_in_range ins) = Ok true ->
  convert_amendment_and_insertion amended inserted = Ok r -> r = BlockAmendment (ARef amended) false.
Proof. intros ins H E. unfold convert_amendment_and_insertion in E. fold ins in E. rewrite H in E. cbn [bind] in E. congruence. Qed.
