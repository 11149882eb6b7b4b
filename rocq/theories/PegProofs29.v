(* Acts, read forwards. *)
From Coq Require Import Lia.
From Verif Require Import PyBase PyBaseFacts UnicodeAlnum NumModel IdModel LineModel DateModel RefModel TreeModel StructModel SemModel GramModel GramSpec PegModel PegSpec PegSpec2 PegProofs PegProofs2 PegProofs7 PegProofs10 PegProofs14 PegProofs22 PegProofs23 PegProofs24 PegProofs25 PegProofs26 PegProofs27 PegProofs28.
Local Open Scope Z_scope.

(** * Abbreviations *)

Lemma plus_join f k w t : w <> [] -> forallb f w = true -> k t <> None -> r_match (RPlus f) k (w ++ t) <> None.
Proof.
  intros N F K. cbn [r_match]. induction w as [|c w IH]; [contradiction|]. cbn [forallb] in F. apply andb_prop in F as [F1 F2]. cbn [app]. rewrite F1. destruct w as [|d w].
  - cbn [app]. destruct ((fix go (s : pystr) : option pystr := match s with [] => None | c0 :: t0 => if f c0 then match go t0 with Some x => Some x | None => k t0 end else None end) t); [discriminate|exact K].
  - specialize (IH ltac:(discriminate) F2). destruct ((fix go (s : pystr) : option pystr := match s with [] => None | c0 :: t0 => if f c0 then match go t0 with Some x => Some x | None => k t0 end else None end) ((d :: w) ++ t)); [discriminate|contradiction].
Qed.
Lemma hun_capital_b c : hun_capital c -> c_capital c = true.
Proof. intros [H|H]; unfold c_capital; apply orb_true_iff; [left; unfold c_AZ; unfold is_capital in H; lia|right; now apply in_str_in]. Qed.
Lemma capital_solid c : hun_capital c -> isspace_chr c = false.
Proof.
  intros C. destruct (isspace_chr c) eqn:S; [|reflexivity]. apply hun_capital_b in C. assert (G : negb (c_capital c) = true) by (revert S; apply (space_all (fun c => negb (c_capital c))); vm_compute; reflexivity).
  rewrite C in G. discriminate.
Qed.
Lemma hun_small_solid c : hun_small c -> isspace_chr c = false.
Proof.
  intros C. destruct (isspace_chr c) eqn:S; [|reflexivity]. apply hun_small_b in C. assert (G : negb (c_small c) = true) by (revert S; apply (space_all (fun c => negb (c_small c))); vm_compute; reflexivity).
  rewrite C in G. discriminate.
Qed.
Lemma smalls_no x w : In x (u8 ". ") -> Forall hun_small w -> ~ In x w.
Proof.
  intros X W H. rewrite Forall_forall in W. apply W in H. apply hun_small_b in H. repeat (destruct X as [<-|X]; [discriminate H|]). destruct X.
Qed.
Lemma same_prefix (x : N) a b r s : ~ In x a -> ~ In x b -> a ++ x :: r = b ++ x :: s -> a = b /\ r = s.
Proof.
  revert b. induction a as [|c a IH]; intros [|d b] A B H.
  - injection H as ->. auto.
  - injection H as -> _. destruct B. now left.
  - injection H as <- _. destruct A. now left.
  - injection H as -> H. destruct (IH b) as [-> ->]; auto; intros I; [apply A|apply B]; now right.
Qed.
(* no more of an abbreviation *)
Definition no_more (s : pystr) : Prop := forall e r, In e [u8 "tv."; u8 "vhr."; u8 " tv."; u8 " vhr."] -> s <> e ++ r.
Lemma short_reads x s : short_name x -> no_more s -> g_abbreviation_rule (x ++ s) = Some (x, s).
Proof.
  intros (c & w & -> & C & N & W) M. set (T := (c :: w ++ u8 ".") ++ s). assert (E : ws T = T) by (apply ws_solid_head; now apply capital_solid).
  destruct (g_abbreviation_rule T) as [[x r]|] eqn:G.
  - apply abbreviation_spells in G as [F (c' & w' & e & -> & C' & N' & W' & I)]. rewrite E in F. unfold T in F. cbn [app] in F. injection F as <- F. rewrite <- !app_assoc in F.
    assert (D : forall v, Forall hun_small v -> ~ In 46%N v) by (intros v V; apply smalls_no; [cbn; tauto|exact V]).
    assert (K : forall v q, Forall hun_small v -> w ++ u8 "." ++ s = (w' ++ v) ++ 46%N :: q -> w = w' ++ v /\ s = q).
    { intros v q V H. apply (same_prefix 46%N w (w' ++ v) s q) in H; [exact H|now apply D|]. apply D. apply Forall_app. now split. }
    assert (SP : forall q, w ++ u8 "." ++ s = w' ++ 32%N :: q -> False).
    { clear -W W'. intros q H. apply app_eq_app in H as (l & [[-> H]|[-> H]]).
      - destruct l as [|d l]; [discriminate H|]. injection H as <- _. apply Forall_app in W as [_ W]. eapply (smalls_no 32%N); [cbn; tauto|exact W|now left].
      - destruct l as [|d l]; [discriminate H|]. injection H as <- _. apply Forall_app in W' as [_ W']. eapply (smalls_no 46%N); [cbn; tauto|exact W'|now left]. }
    assert (sm : forall l, forallb c_az l = true -> Forall hun_small l).
    { intros l L. apply Forall_forall. intros d Dd. rewrite forallb_forall in L. apply L in Dd. left. unfold c_az in Dd. unfold is_small. lia. }
    cbn [In] in I. decompose [or] I; clear I; try contradiction; subst e; cbn [app] in F.
    + destruct (K [] r) as [-> ->]; [constructor|now rewrite app_nil_r|]. now rewrite app_nil_r.
    + destruct (K (u8 "tv") r) as [-> ->]; [now apply sm|now rewrite <- app_assoc|]. now rewrite <- !app_assoc.
    + destruct (K (u8 "vhr") r) as [-> ->]; [now apply sm|now rewrite <- app_assoc|]. now rewrite <- !app_assoc.
    + now apply SP in F.
    + now apply SP in F.
    + destruct (K [] (u8 "tv." ++ r)) as [_ F']; [constructor|now rewrite app_nil_r|]. destruct (M (u8 "tv.") r); [cbn; tauto|exact F'].
    + destruct (K [] (u8 "vhr." ++ r)) as [_ F']; [constructor|now rewrite app_nil_r|]. destruct (M (u8 "vhr.") r); [cbn; tauto|exact F'].
    + destruct (K [] (u8 " tv." ++ r)) as [_ F']; [constructor|now rewrite app_nil_r|]. destruct (M (u8 " tv.") r); [cbn; tauto|exact F'].
    + destruct (K [] (u8 " vhr." ++ r)) as [_ F']; [constructor|now rewrite app_nil_r|]. destruct (M (u8 " vhr.") r); [cbn; tauto|exact F'].
  - exfalso. unfold g_abbreviation_rule, p_rule in G. rewrite E in G. apply (f_equal (fun o => match o with Some _ => true | None => false end)) in G. cbv iota in G.
    unfold p_or in G. destruct (p_re _ T) in G; [discriminate|]. unfold p_re in G. destruct (r_match _ _ T) eqn:R in G; [discriminate|].
    cbn [r_match] in R. unfold T in R. cbn [app] in R. rewrite hun_capital_b in R by exact C. rewrite <- app_assoc in R. revert R. apply (plus_join c_small); [exact N|now apply smalls_b|]. cbn. discriminate.
Qed.

(** * Numbers of acts *)

Lemma tok_space w c s : isspace_chr c = true -> p_tok w (c :: s) = p_tok w s.
Proof. intros C. unfold p_tok, ws. cbn [drop_while]. now rewrite C. Qed.
Lemma rule_space {A} (p : parser A) c s : isspace_chr c = true -> p_rule p (c :: s) = p_rule p s.
Proof. intros C. unfold p_rule, ws. cbn [drop_while]. now rewrite C. Qed.
Lemma roman_yes n s : roman_letters n -> g_roman (n ++ 46%N :: s) = Some (n, 46%N :: s).
Proof.
  intros [N R]. assert (F : forallb c_roman n = true) by (rewrite forallb_forall; rewrite Forall_forall in R; intros c C; apply R in C; unfold c_roman; now apply in_str_in).
  destruct n as [|c n]; [contradiction|]. unfold g_roman, p_rule. cbn [app]. rewrite ws_solid_head.
  - change (c :: n ++ 46%N :: s) with ((c :: n) ++ 46%N :: s). unfold p_re. rewrite match_plus by discriminate. cbn [forallb] in F. apply andb_prop in F as [F1 F2]. cbn [app]. rewrite F1.
    assert (D : drop_while c_roman (c :: n ++ 46%N :: s) = 46%N :: s). { cbn [drop_while]. rewrite F1. clear -F2. induction n as [|d n IH]; [reflexivity|]. cbn [forallb] in F2. apply andb_prop in F2 as [F2 F3]. cbn [app drop_while]. rewrite F2. auto. }
    rewrite D. f_equal. f_equal. change (c :: n ++ 46%N :: s) with ((c :: n) ++ 46%N :: s). rewrite app_length, Nat.add_sub, firstn_app, firstn_all, Nat.sub_diag. cbn [firstn]. now rewrite app_nil_r.
  - inversion_clear R as [|? ? R1 _]. repeat (destruct R1 as [<-|R1]; [reflexivity|]). destruct R1.
Qed.
Lemma small_alnum c : hun_small c -> isalnum_chr c = true.
Proof.
  intros [C|C]; [|repeat (destruct C as [<-|C]; [vm_compute; reflexivity|]); destruct C]. unfold is_small in C.
  assert (H : In c (spread (97%N, 122%N))) by (unfold spread; apply in_map_iff; exists (N.to_nat (c - 97)); split; [cbn [fst]; lia|apply in_seq; cbn [fst snd]; lia]).
  revert c C H. assert (G : forallb isalnum_chr (spread (97%N, 122%N)) = true) by (vm_compute; reflexivity). rewrite forallb_forall in G. auto.
Qed.
Lemma act_suffix_reads e s : ending e -> gap s -> exists x, g_act_suffix (u8 " törvény" ++ e ++ s) = Some (x, s).
Proof.
  intros E G. unfold g_act_suffix. change (u8 " törvény" ++ e ++ s) with (32%N :: u8 "törvény" ++ e ++ s). rewrite rule_space by reflexivity. unfold p_rule.
  change (ws (u8 "törvény" ++ e ++ s)) with (u8 "törvény" ++ e ++ s). apply gap_end in G. destruct e as [|c e].
  - exists (u8 "törvény"). apply or_yes, or_yes. cbn [app]. apply (tok_yes (u8 "törvény") s); [reflexivity|]. intros _. destruct s as [|d s]; [reflexivity|]. apply G.
  - exists (u8 "törvén" ++ 121%N :: c :: e). apply or_yes. rewrite or_no.
    + change (u8 "törvény" ++ (c :: e) ++ s) with (u8 "törvén" ++ (121%N :: c :: e) ++ s). apply suffixed_yes; [discriminate|apply smalls_b; constructor; [left; unfold is_small; lia|exact E]|]. destruct s as [|d s]; [exact I|apply G].
    + unfold p_tok. change (ws (u8 "törvény" ++ (c :: e) ++ s)) with (u8 "törvény" ++ (c :: e) ++ s). assert (A : after_prefix (u8 "törvény") (u8 "törvény" ++ (c :: e) ++ s) = Some ((c :: e) ++ s)) by now apply after_prefix_spec.
      rewrite A. inversion_clear E as [|? ? C _]. change (is_name (u8 "törvény")) with true. cbn [app name_goes_on]. rewrite small_alnum by exact C. reflexivity.
Qed.
Section Total.
Variable total : Z.
Lemma act_id_reads y n e s : digits y -> roman_letters n -> ending e -> gap s ->
  g_act_id total ((y ++ u8 ". évi " ++ n ++ u8 ". törvény" ++ e) ++ s) =
  Some ((y, n, (pos_of total ((y ++ u8 ". évi " ++ n ++ u8 ". törvény" ++ e) ++ s), pos_of total s)), s).
Proof.
  intros D R E G. set (T := (y ++ u8 ". évi " ++ n ++ u8 ". törvény" ++ e) ++ s). assert (ET : T = y ++ 46%N :: 32%N :: u8 "évi" ++ 32%N :: n ++ 46%N :: u8 " törvény" ++ e ++ s) by (unfold T; now rewrite <- !app_assoc).
  assert (W : ws T = T) by (rewrite ET; apply ws_digits; exact D). destruct (act_suffix_reads e s E G) as (x & X). unfold g_act_id.
  apply (map_yes (fun x => (fst (fst x), snd (fst x), snd x)) _ T ((y, n), (pos_of total T, pos_of total s)) s). rewrite <- W at 2. apply span_yes. rewrite W, ET.
  rewrite (bind_yes _ _ _ y (46%N :: 32%N :: u8 "évi" ++ 32%N :: n ++ 46%N :: u8 " törvény" ++ e ++ s)) by (now apply number_yes). rewrite (bind_yes _ _ _ _ _ (tok_dot _)).
  rewrite (bind_yes _ _ _ (u8 "évi") (32%N :: n ++ 46%N :: u8 " törvény" ++ e ++ s)); [|rewrite tok_space by reflexivity; now apply tok_yes].
  rewrite (bind_yes _ _ _ n (46%N :: u8 " törvény" ++ e ++ s)); [|unfold g_roman; rewrite rule_space by reflexivity; now apply roman_yes]. rewrite (bind_yes _ _ _ _ _ (tok_dot _)). now rewrite (bind_yes _ _ _ _ _ X).
Qed.

(** * From now on *)

(* no bracket with words *)
Definition no_bracket (s : pystr) : Prop := lc s <> 40%N \/ exists z, ws s = 40%N :: z /\ lc z <> 97%N.
Lemma no_from_now_on s : no_bracket s -> p_opt (p_map Some g_from_now_on <|> p_map (fun _ => None) (g_from_now_on_long total)) s = Some (None, s).
Proof.
  intros H. apply opt_no. unfold g_from_now_on, g_from_now_on_long, p_rule. destruct H as [H|(z & E & H)].
  - rewrite or_no; apply map_no; apply bind_no, tok_no; now rewrite lc_ws.
  - rewrite or_no; apply map_no; rewrite E, (bind_yes _ _ _ _ _ (tok_open z)); apply bind_no, tok_no; exact H.
Qed.
Lemma from_now_on_reads x s : short_name x -> p_opt (p_map Some g_from_now_on <|> p_map (fun _ => None) (g_from_now_on_long total)) ((u8 " (a továbbiakban: " ++ x ++ u8 ")") ++ s) = Some (Some (Some x), s).
Proof.
  intros X. apply opt_yes, or_yes. apply (map_yes Some). unfold g_from_now_on. replace ((u8 " (a továbbiakban: " ++ x ++ u8 ")") ++ s) with (32%N :: 40%N :: u8 "a" ++ 32%N :: u8 "továbbiakban" ++ 58%N :: 32%N :: x ++ 41%N :: s) by (now rewrite <- !app_assoc).
  rewrite rule_space by reflexivity. unfold p_rule. rewrite ws_solid_head by reflexivity. rewrite (bind_yes _ _ _ _ _ (tok_open _)).
  rewrite (bind_yes _ _ _ (u8 "a") (32%N :: u8 "továbbiakban" ++ 58%N :: 32%N :: x ++ 41%N :: s)) by (now apply tok_yes).
  rewrite (bind_yes _ _ _ (u8 "továbbiakban") (58%N :: 32%N :: x ++ 41%N :: s)) by (rewrite tok_space by reflexivity; now apply tok_yes).
  rewrite (bind_yes _ _ _ (Some (u8 ":")) (32%N :: x ++ 41%N :: s)) by (apply opt_yes; now apply (tok_yes (u8 ":"))).
  rewrite (bind_yes _ _ _ x (41%N :: s)).
  - rewrite (bind_yes _ _ _ None (41%N :: s)) by (apply opt_no; now apply tok_no). now rewrite (bind_yes _ _ _ _ _ (tok_close s)).
  - unfold g_abbreviation_rule. rewrite rule_space by reflexivity. apply (short_reads x (41%N :: s) X). intros e r H. repeat (destruct H as [<-|H]; [discriminate|]). destruct H.
Qed.

(** * The act *)

Definition says_act (a : pystr) (k k' : Z) (m : list act_id_abbreviation) (g : g_act_ref) : Prop :=
  get_act_id g = Ok a /\ get_act_id_pos g = Ok (k, k') /\ act_reference_to_abbreviation g = Ok m.
Lemma act_reads a x y m s : act_written a x y m -> gap s -> no_bracket s -> no_more s ->
  exists g, g_act_reference total (x ++ y ++ s) = Some (g, s) /\ says_act a (pos_of total (x ++ y ++ s)) (pos_of total (y ++ s)) m g.
Proof.
  intros A G B M. destruct A as [x X|y n e Y R E|y n e x Y R E X].
  - pose proof (short_reads x s X M) as S. assert (W : ws (x ++ s) = x ++ s). { destruct X as (c & w & -> & C & _). apply ws_solid_head. now apply capital_solid. }
    exists (mk_gactref None (Some (x, (pos_of total (x ++ s), pos_of total s))) None). split; [|repeat split]. cbn [app]. unfold g_act_reference, p_rule. rewrite W. apply or_yes. rewrite (bind_yes _ _ _ (x, (pos_of total (x ++ s), pos_of total s)) s); [reflexivity|].
    rewrite <- W at 2. apply span_yes. now rewrite W.
  - change ([] ++ s) with s. pose proof (act_id_reads y n e s Y R E G) as I. exists (mk_gactref (Some (y, n, (pos_of total ((y ++ u8 ". évi " ++ n ++ u8 ". törvény" ++ e) ++ s), pos_of total s))) None None). split; [|repeat split]. unfold g_act_reference, p_rule.
    assert (W : ws ((y ++ u8 ". évi " ++ n ++ u8 ". törvény" ++ e) ++ s) = (y ++ u8 ". évi " ++ n ++ u8 ". törvény" ++ e) ++ s) by (rewrite <- app_assoc; now apply ws_digits). rewrite W.
    rewrite or_no; [rewrite (bind_yes _ _ _ _ _ I); now rewrite (bind_yes _ _ _ _ _ (no_from_now_on s B))|]. apply bind_no, span_no. rewrite W.
    destruct (g_abbreviation_rule _) as [[z r]|] eqn:Q; [|reflexivity]. exfalso. apply abbreviation_spells in Q as [F (c & w & f & -> & C & _)]. rewrite W in F. destruct (digits_head y Y) as (d & y' & -> & D). injection F as -> _. apply capital_range in C. unfold c_09 in D. lia.
  - pose proof (act_id_reads y n e ((u8 " (a továbbiakban: " ++ x ++ u8 ")") ++ s) Y R E (gap_space _)) as I.
    exists (mk_gactref (Some (y, n, (pos_of total ((y ++ u8 ". évi " ++ n ++ u8 ". törvény" ++ e) ++ (u8 " (a továbbiakban: " ++ x ++ u8 ")") ++ s), pos_of total ((u8 " (a továbbiakban: " ++ x ++ u8 ")") ++ s)))) None (Some x)). split; [|repeat split]. unfold g_act_reference, p_rule.
    set (T := (y ++ u8 ". évi " ++ n ++ u8 ". törvény" ++ e) ++ (u8 " (a továbbiakban: " ++ x ++ u8 ")") ++ s) in *. assert (W : ws T = T) by (unfold T; rewrite <- app_assoc; now apply ws_digits). rewrite W.
    rewrite or_no; [rewrite (bind_yes _ _ _ _ _ I); now rewrite (bind_yes _ _ _ _ _ (from_now_on_reads x s X))|]. apply bind_no, span_no. rewrite W.
    destruct (g_abbreviation_rule _) as [[z r]|] eqn:Q; [|reflexivity]. exfalso. apply abbreviation_spells in Q as [F (c & w & f & -> & C & _)]. rewrite W in F. unfold T in F. destruct (digits_head y Y) as (d & y' & -> & D). injection F as -> _. apply capital_range in C. unfold c_09 in D. lia.
Qed.
End Total.
