(* Words between references. *)
From Verif Require Import PyBase PyBaseFacts UnicodeAlnum NumModel IdModel LineModel DateModel RefModel TreeModel StructModel SemModel GramModel GramSpec PegModel PegSpec PegSpec2 PegProofs PegProofs2 PegProofs7 PegProofs10 PegProofs14 PegProofs22 PegProofs23 PegProofs24 PegProofs25.
From Coq Require Import Lia.
Local Open Scope Z_scope.

Notation nonspace := (fun c => isspace_chr c = false).
(* what may come after words *)
Definition opens (s : pystr) : Prop :=
  s = [] \/ exists c t, s = c :: t /\ isspace_chr c = false /\ c <> 41%N /\ ~ is_dash c /\ (forall r, s <> u8 "tv." ++ r) /\ (forall r, s <> u8 "vhr." ++ r).
Lemma opens_lc s : opens s -> lc s <> 41%N /\ ~ is_dash (lc s).
Proof.
  intros [->|(c & t & -> & C & H1 & H2 & _)]; [|now rewrite lc_solid]. split; [discriminate|]. unfold is_dash. cbn. intuition discriminate.
Qed.
Lemma words_lc u s : Forall word_chr u -> opens s -> lc (u ++ s) <> 41%N /\ ~ is_dash (lc (u ++ s)).
Proof.
  intros U S. induction U as [|c u C _ IH]; [now apply opens_lc|]. cbn [app]. destruct (isspace_chr c) eqn:E; [now rewrite lc_space|]. rewrite lc_solid by exact E. destruct C as [_ C]. split.
  - intros ->. apply C. cbn. tauto.
  - intros D. apply C. unfold is_dash in D. cbn in D |- *. tauto.
Qed.
Lemma words_suffix u v : words (u ++ v) -> words v.
Proof.
  intros [F N]. apply Forall_app in F as [_ F]. split; [exact F|]. intros x X (a & b & E). apply (N x X). exists (u ++ a), b. rewrite E. now rewrite <- app_assoc.
Qed.
(* u is followed by nothing or ends with white space *)
Definition closed (u s : pystr) : Prop := s = [] \/ spaced u.
Lemma closed_suffix w u s : u <> [] -> closed (w ++ u) s -> closed u s.
Proof.
  intros N [H|[H|(u' & c & H & C)]]; [now left|destruct w; [|discriminate H]; cbn in H; contradiction|]. right. right. destruct (exists_last N) as (a & b & ->). exists a, b. split; [reflexivity|].
  rewrite app_assoc in H. apply app_inj_tail in H as [_ ->]. exact C.
Qed.
Lemma within u s w r : u <> [] -> closed u s -> Forall nonspace w -> u ++ s = w ++ r -> exists u2, u = w ++ u2 /\ r = u2 ++ s.
Proof.
  intros N K W E. apply app_eq_app in E as (l & [[-> ->]|[-> E]]); [exists l; auto|]. destruct K as [->|[->|(u' & c & -> & C)]]; [|contradiction|].
  - symmetry in E. apply app_eq_nil in E as [-> ->]. exists []. rewrite !app_nil_r. auto.
  - apply Forall_app in W as [W _]. apply Forall_app in W as [_ W]. inversion_clear W. cbn in *. congruence.
Qed.
Lemma small_nonspace w : forallb c_az w = true -> Forall nonspace w.
Proof.
  intros H. rewrite forallb_forall in H. apply Forall_forall. intros c C. apply H in C. apply small_solid. unfold c_az in C. unfold is_small. lia.
Qed.

(** * No parts *)

Section Total.
Variable total : Z.

Lemma tok_of_rule w s x r : match w with c :: _ => isspace_chr c = false | [] => False end -> p_tok w s = Some (x, r) -> ws s = w ++ r.
Proof. intros _ H. now apply tok_inv in H as (_ & E & _). Qed.
Lemma alphabetic_takes s l r : g_alphabetic_point_id s = Some (l, r) -> exists w, ws s = w ++ r /\ Forall nonspace w.
Proof.
  unfold g_alphabetic_point_id, p_rule. intros H. apply map_inv in H as (x & H & _). apply or_inv in H as [H|[_ H]]; [apply or_inv in H as [H|[_ H]]|].
  - apply tok_inv in H as (_ & E & _). rewrite ws_idem in E. exists (u8 "ny"). split; [exact E|]. repeat constructor.
  - apply tok_inv in H as (_ & E & _). rewrite ws_idem in E. exists (u8 "sz"). split; [exact E|]. repeat constructor.
  - rewrite re_set in H. destruct (ws s) as [|c t] eqn:W; [discriminate|]. destruct (c_az c); [|discriminate]. injection H as _ <-. exists [c]. split; [reflexivity|]. constructor; [|constructor]. eapply ws_head. exact W.
Qed.
Lemma subpoint_takes s l r : g_alphabetic_subpoint_id s = Some (l, r) -> exists w, ws s = w ++ r /\ Forall nonspace w.
Proof.
  unfold g_alphabetic_subpoint_id, p_rule. intros H. apply map_inv in H as (x & H & _). apply re_inv in H as [E H]. exists x. split; [exact E|]. cbn [r_match] in H. rewrite E in H.
  destruct x as [|c x]; [constructor|]. cbn [app] in H. destruct (c_az c) eqn:C; [|discriminate]. destruct x as [|d x].
  - apply small_nonspace. cbn. now rewrite C.
  - cbn [app] in H. destruct (c_az d) eqn:D; injection H as H.
    + apply (f_equal (@length N)) in H. rewrite app_length in H. destruct x; [|cbn in H; lia]. apply small_nonspace. cbn. now rewrite C, D.
    + apply (f_equal (@length N)) in H. cbn in H. rewrite app_length in H. lia.
Qed.
Lemma words_nothing t u s : In t [PAlphabeticPoint; PAlphabeticSubpoint] -> u <> [] -> words u -> closed u s -> opens s -> ws (u ++ s) = u ++ s ->
  range_parser t (u ++ s) = None /\ single_parser t (u ++ s) = None.
Proof.
  intros T N [W _] K O E.
  assert (F : forall w r, Forall nonspace w -> ws (u ++ s) = w ++ r -> lc r <> 41%N /\ ~ is_dash (lc r)).
  { intros w r FW H. rewrite E in H. destruct (within u s w r N K FW H) as (u2 & -> & ->). apply Forall_app in W as [_ W]. now apply words_lc. }
  destruct T as [<-|[<-|[]]]; cbn [range_parser single_parser].
  - destruct (g_alphabetic_point_id (u ++ s)) as [[l r]|] eqn:G; [|now rewrite !(bind_no _ _ _ G)]. rewrite !(bind_yes _ _ _ _ _ G).
    apply alphabetic_takes in G as (w & H & FW). destruct (F w r FW H) as [F1 F2]. split; [|now apply bind_no, tok_no].
    rewrite (bind_yes _ _ _ None r) by (apply opt_no; now apply tok_no). apply bind_no. now apply dash_no.
  - destruct (g_alphabetic_subpoint_id (u ++ s)) as [[l r]|] eqn:G; [|now rewrite !(bind_no _ _ _ G)]. rewrite !(bind_yes _ _ _ _ _ G).
    apply subpoint_takes in G as (w & H & FW). destruct (F w r FW H) as [F1 F2]. split; now apply bind_no, tok_no.
Qed.
Lemma word_head c u s : word_chr c -> isspace_chr c = false -> c_09 (lc (c :: u ++ s)) = false /\ lc (c :: u ++ s) <> 40%N /\ lc (c :: u ++ s) <> 8222%N.
Proof.
  intros [D C] H. rewrite lc_solid by exact H. split; [unfold c_09; lia|]. split; intros ->; apply C; cbn; tauto.
Qed.
Lemma words_partless c u s : words (c :: u) -> isspace_chr c = false -> closed (c :: u) s -> opens s -> partless total ((c :: u) ++ s).
Proof.
  intros W C K O t. apply part_nothing. assert (E : ws ((c :: u) ++ s) = (c :: u) ++ s) by (now apply ws_solid_head). rewrite E.
  assert (WC : word_chr c) by (destruct W as [W _]; now inversion W). destruct (word_head c u s WC C) as (H1 & H2 & _). destruct t.
  1,4,6: apply nothing_numeric; [exact H1|cbn; tauto].
  1: now apply nothing_paragraph.
  all: apply words_nothing; auto; try discriminate; cbn; tauto.
Qed.

(** * No abbreviations *)

Lemma abbreviation_no c u s : words (c :: u) -> isspace_chr c = false -> closed (c :: u) s -> opens s -> g_abbreviation_rule ((c :: u) ++ s) = None.
Proof.
  intros [_ W] C K O. destruct (g_abbreviation_rule _) as [[x r]|] eqn:G; [|reflexivity]. exfalso. apply abbreviation_spells in G as [E X]. cbn [app] in E. rewrite ws_solid_head in E by exact C.
  change (c :: u ++ s) with ((c :: u) ++ s) in E. apply app_eq_app in E as (l & [[E ->]|[-> E]]).
  - apply (W x X). exists [], l. exact E.
  - destruct l as [|d l]; [apply (W _ X); exists [], []; now rewrite !app_nil_r|]. destruct K as [->|[K|(u' & z & K & Z)]]; [discriminate|discriminate|].
    destruct X as (a & w & e & X & A & _ & Sm & In). rewrite K in X. rewrite <- app_assoc in X. change (a :: w ++ e) with ((a :: w) ++ e) in X.
    assert (NS : Forall nonspace (a :: w)).
    { constructor.
      - destruct u' as [|b u']; injection X as <- _; [|injection K as <- _; exact C]. injection K as <- _. exact C.
      - eapply Forall_impl; [|exact Sm]. intros b B. change (isspace_chr b = false). destruct (isspace_chr b) eqn:SB; [|reflexivity]. exfalso. apply hun_small_b in B.
        assert (G : negb (c_small b) = true) by (revert SB; apply (space_all (fun b => negb (c_small b))); vm_compute; reflexivity). rewrite B in G. discriminate. }
    assert (X' : exists m, e = m ++ z :: d :: l).
    { apply app_eq_app in X as (m & [[_ X]|[X Y]]); [now exists m|]. destruct m as [|b m]; [now exists []|]. injection Y as -> Y. rewrite X in NS. apply Forall_app in NS as [_ NS]. inversion_clear NS as [|? ? NB _]. change (isspace_chr b = false) in NB. congruence. }
    assert (L : d :: l = u8 "tv." \/ d :: l = u8 "vhr.").
    { clear - X' In Z. destruct X' as [m ->]. repeat (destruct In as [In|In]; [repeat (destruct m as [|? m]; [first [injection In as <- <- <-|injection In as <- _|discriminate In]; first [discriminate Z|now left|now right]|first [injection In as _ In|discriminate In]])|]). destruct In. }
    destruct O as [->|(c' & t & _ & _ & _ & _ & O1 & O2)]; [discriminate|]. destruct L as [L|L]; rewrite L in E; [exact (O1 r E)|exact (O2 r E)].
Qed.

(** * Reading words *)

Definition other (t : g_tree) : Prop := t = GTree GOther [].
Lemma quote_no s : lc s <> 8222%N -> g_quote_rule s = None.
Proof. intros H. unfold g_quote_rule. destruct (length s) as [|n]; [reflexivity|]. cbn [quote_loop]. unfold p_rule. apply bind_no, tok_no. now rewrite lc_ws. Qed.
Lemma compound_no s : partless total s -> g_abbreviation_rule (ws s) = None -> c_09 (lc s) = false -> g_compound_reference total s = None.
Proof.
  intros P A D. unfold g_compound_reference, p_rule. rewrite or_no.
  - apply bind_no, reference_no. intros t. now rewrite part_rule_ws.
  - apply bind_no. unfold g_act_reference, p_rule. rewrite ws_idem. rewrite or_no; [|apply bind_no, span_no; rewrite ws_idem; exact A]. apply bind_no. unfold g_act_id.
    apply (map_no (fun x => (fst (fst x), snd (fst x), snd x))). apply span_no. apply bind_no, number_no. now rewrite !lc_ws.
Qed.
Lemma word_chr_space c : isspace_chr c = true -> c_word c = false.
Proof. intros H. assert (G : negb (c_word c) = true) by (revert H; apply (space_all (fun c => negb (c_word c))); vm_compute; reflexivity). now destruct (c_word c). Qed.
Lemma word_token c u s : words (c :: u) -> isspace_chr c = false -> closed (c :: u) s -> exists x u1 u2, g_any_token ((c :: u) ++ s) = Some (x, u2 ++ s) /\ u = u1 ++ u2.
Proof.
  intros W C K. assert (WC : word_chr c) by (destruct W as [W _]; now inversion W). destruct (word_head c u s WC C) as (H1 & _). unfold g_any_token, p_rule. cbn [app]. rewrite ws_solid_head by exact C.
  destruct (g_word (c :: u ++ s)) as [[x r]|] eqn:G.
  - exists x. unfold g_word, p_rule in G. rewrite ws_solid_head in G by exact C. apply plus_inv in G as G'. destruct G' as (E & N & F & _).
    assert (FW : Forall nonspace x).
    { rewrite forallb_forall in F. apply Forall_forall. intros d D. apply F in D. change (isspace_chr d = false). destruct (isspace_chr d) eqn:SD; [|reflexivity]. apply word_chr_space in SD. congruence. }
    destruct (within (c :: u) s x r) as (u2 & E2 & ->); [discriminate|exact K|exact FW|exact E|]. destruct x as [|d x]; [contradiction|]. injection E2 as <- ->. exists x, u2. split; [|reflexivity].
    apply or_yes, or_yes. unfold g_word, p_rule. rewrite ws_solid_head by exact C. exact G.
  - exists [c], [], u. split; [|reflexivity]. rewrite or_no; [|rewrite or_no; [now apply number_no|exact G]]. rewrite re_set. unfold c_not_newline. destruct (N.eqb_spec c 10) as [->|_]; [vm_compute in C; discriminate|]. reflexivity.
Qed.
Lemma word_step c u s : words (c :: u) -> isspace_chr c = false -> closed (c :: u) s -> opens s ->
  exists u1 u2, g_any_simple_expression total ((c :: u) ++ s) = Some (GTree GOther [], u2 ++ s) /\ u = u1 ++ u2.
Proof.
  intros W C K O. assert (WC : word_chr c) by (destruct W as [W _]; now inversion W). destruct (word_head c u s WC C) as (H1 & H2 & H3).
  destruct (word_token c u s W C K) as (x & u1 & u2 & T & E). exists u1, u2. split; [|exact E]. unfold g_any_simple_expression, p_rule. cbn [app]. rewrite ws_solid_head by exact C.
  pose proof (abbreviation_no c u s W C K O) as A. cbn [app] in *.
  rewrite or_no; [apply (map_yes (fun _ => GTree GOther [])) in T; exact T|]. rewrite or_no; [apply (map_no (fun _ => GTree GOther [])); exact A|].
  rewrite or_no; [|apply (map_no (fun _ => GTree GOther [])); now apply quote_no]. apply compound_no; [|rewrite ws_solid_head by exact C; exact A|exact H1].
  exact (words_partless c u s W C K O).
Qed.

(** * Steps *)

Inductive steps : pystr -> list g_tree -> pystr -> Prop :=
| st_nil s : steps s [] s
| st_cons s t s' l r : g_any_simple_expression total s = Some (t, s') -> steps s' l r -> steps s (t :: l) r.
Lemma steps_app s l r l' r' : steps s l r -> steps r l' r' -> steps s (l ++ l') r'.
Proof. induction 1; intros S; [exact S|]. cbn. econstructor; eauto. Qed.
Lemma ws_words u s : exists v, ws (u ++ s) = ws (v ++ s) /\ (v = [] \/ exists c w, v = c :: w /\ isspace_chr c = false) /\ exists z, u = z ++ v.
Proof.
  induction u as [|c u (v & E & H & z & Z)]; [exists []; split; [reflexivity|]; split; [now left|now exists []]|]. destruct (isspace_chr c) eqn:C.
  - exists v. split; [unfold ws in *; cbn [app drop_while]; now rewrite C|]. split; [exact H|]. exists (c :: z). now rewrite Z.
  - exists (c :: u). split; [reflexivity|]. split; [right; exists c, u; auto|]. now exists [].
Qed.
Lemma simple_ws s : g_any_simple_expression total (ws s) = g_any_simple_expression total s.
Proof. unfold g_any_simple_expression, p_rule. now rewrite ws_idem. Qed.
Lemma words_steps s : opens s -> forall n u, (length u <= n)%nat -> words u -> closed u s -> exists l r, steps (u ++ s) l r /\ Forall other l /\ ws r = ws s.
Proof.
  intros O. induction n as [|n IH]; intros u L W K.
  - destruct u; [|cbn in L; lia]. exists [], s. split; [constructor|]. split; [constructor|reflexivity].
  - destruct (ws_words u s) as (v & E & H & z & Z). destruct H as [->|(c & w & -> & C)]; [exists [], (u ++ s); split; [constructor|]; split; [constructor|exact E]|].
    assert (W' : words (c :: w)) by (rewrite Z in W; now apply words_suffix in W). assert (K' : closed (c :: w) s) by (rewrite Z in K; eapply closed_suffix; [discriminate|exact K]).
    destruct (word_step c w s W' C K' O) as (u1 & u2 & T & ->). rewrite <- simple_ws in T. rewrite <- E, simple_ws in T.
    destruct u2 as [|d u2].
    + exists [GTree GOther []], s. split; [econstructor; [exact T|constructor]|]. split; [repeat constructor|reflexivity].
    + destruct (IH (d :: u2)) as (l & r & S & F & R).
      * rewrite Z in L. cbn [length] in *. rewrite !app_length in L. cbn [length] in L. rewrite app_length in L. cbn [length] in L. lia.
      * change (c :: u1 ++ d :: u2) with ((c :: u1) ++ d :: u2) in W'. now apply words_suffix in W'.
      * change (c :: u1 ++ d :: u2) with ((c :: u1) ++ d :: u2) in K'. eapply closed_suffix; [discriminate|exact K'].
      * exists (GTree GOther [] :: l), r. split; [econstructor; eauto|]. split; [constructor; [reflexivity|exact F]|exact R].
Qed.
Lemma simple_end s : ws s = [] -> g_any_simple_expression total s = None.
Proof.
  intros E. destruct (g_any_simple_expression total s) as [[t r]|] eqn:G; [|reflexivity]. exfalso. apply eats_simple in G as (q & S & _). apply solid_visible in S as (c & I & C).
  apply ws_blank in E. rewrite Forall_forall in E. apply E in I. congruence.
Qed.
Lemma steps_rounds s l r : steps s l r -> ws r = [] -> forall n, (length s <= n)%nat -> p_rounds n (g_any_simple_expression total) s = (l, r).
Proof.
  induction 1 as [s|s t s' l r H S IH]; intros E n L.
  - apply simple_end in E. destruct n; [reflexivity|]. cbn [p_rounds]. now rewrite E.
  - apply eats_length in H as H'; [|apply eats_simple]. destruct n as [|n]; [lia|]. cbn [p_rounds]. rewrite H, (IH E n) by lia. reflexivity.
Qed.
Lemma steps_read s l r : steps s l r -> l <> [] -> ws r = [] -> to_the_end (p_many1 (g_any_simple_expression total)) (ws s) = Some (l, []).
Proof.
  intros S N E. destruct S as [|s t s' l r H S]; [contradiction|]. unfold to_the_end, p_many1. rewrite <- simple_ws in H.
  assert (M : p_many (g_any_simple_expression total) s' = Some (l, r)) by (unfold p_many; f_equal; now apply steps_rounds).
  unfold p_bind at 1 2 3. rewrite H, M. unfold p_ret at 1. unfold p_bind, p_eof. now rewrite E.
Qed.
End Total.
