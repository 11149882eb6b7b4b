(* Sentences of words, references and acts. *)
From Coq Require Import Lia.
From Verif Require Import PyBase PyBaseFacts UnicodeAlnum NumModel IdModel LineModel DateModel RefModel TreeModel StructModel SemModel GramModel GramSpec PegModel PegSpec PegSpec2 PegProofs PegProofs2 PegProofs7 PegProofs10 PegProofs14 PegProofs22 PegProofs23 PegProofs24 PegProofs25 PegProofs26 PegProofs27 PegProofs28 PegProofs29 PegProofs30.
Local Open Scope Z_scope.

Section Total.
Variable total : Z.

(** * Acts *)

Definition act_head (c : N) : Prop := hun_capital c \/ c_09 c = true.
Lemma act_begins a x y m s : act_written a x y m -> exists c t, x ++ s = c :: t /\ act_head c.
Proof.
  intros A. destruct A as [x (c & w & -> & C & _)|d n e D _ _|d n e x D _ _ _].
  - eexists. eexists. split; [reflexivity|now left].
  - destruct (digits_head d D) as (c & t & -> & C). eexists. eexists. split; [reflexivity|now right].
  - destruct (digits_head d D) as (c & t & -> & C). eexists. eexists. split; [reflexivity|now right].
Qed.
Lemma act_and_begins k w l m s : act_and_written k w l m -> exists c t, w ++ s = c :: t /\ act_head c.
Proof. intros A. destruct A as [k a x y l A|k a x y l t refs A _]; rewrite <- app_assoc; eapply act_begins; exact A. Qed.
Lemma act_head_facts c : act_head c -> isspace_chr c = false /\ c <> 8222%N /\ c <> 41%N /\ ~ is_dash c /\ c <> 116%N /\ c <> 118%N.
Proof.
  intros [C|C].
  - split; [now apply capital_solid|]. destruct C as [C|C].
    + unfold is_capital in C. repeat split; try lia. unfold is_dash. cbn. lia.
    + unfold is_dash. repeat (destruct C as [<-|C]; [repeat split; try discriminate; cbn; intuition discriminate|]). destruct C.
  - split; [now apply digit_space|]. unfold c_09 in C. repeat split; try lia. unfold is_dash. cbn. lia.
Qed.
Lemma act_opens k w l m s : act_and_written k w l m -> opens (w ++ s).
Proof.
  intros A. destruct (act_and_begins k w l m s A) as (c & t & -> & C). apply act_head_facts in C as (S & _ & H1 & H2 & H3 & H4). right. exists c, t.
  repeat split; auto; intros r [= E]; contradiction.
Qed.
Lemma begins_bracket t : begins t -> no_bracket (u8 " " ++ t).
Proof.
  intros B. destruct (begins_opens t B) as [_ E]. unfold no_bracket. change (ws (u8 " " ++ t)) with (ws t). change (lc (u8 " " ++ t)) with (lc t). rewrite E.
  destruct B as [n z N _|n a z N _ _|c z C|c z C Z|c d z C F Z].
  - left. destruct (digits_head n N) as (c & r & -> & C). cbn [app]. rewrite lc_solid by now apply digit_space. intros ->. discriminate C.
  - left. destruct (digits_head n N) as (c & r & -> & C). cbn [app]. rewrite lc_solid by now apply digit_space. intros ->. discriminate C.
  - right. eexists. split; [reflexivity|]. rewrite lc_solid by now apply digit_space. intros ->. discriminate C.
  - left. rewrite lc_solid by now apply small_solid. unfold is_small in C. lia.
  - left. rewrite lc_solid by now apply small_solid. unfold is_small in C. lia.
Qed.
Lemma begins_no_more t : begins t -> no_more (u8 " " ++ t).
Proof.
  intros B. destruct (begins_opens t B) as [O _]. intros e r I H. destruct O as [->|(c & z & -> & _ & _ & _ & H1 & H2)].
  - repeat (destruct I as [<-|I]; [discriminate H|]). destruct I.
  - destruct I as [<-|[<-|[<-|[<-|[]]]]]; try discriminate H; injection H as H H'; [apply (H1 r)|apply (H2 r)]; now rewrite H, H'.
Qed.
(* what may follow an act and its references, and where the reading stops *)
Definition free (s s' : pystr) : Prop := silent total s /\ no_more s /\ no_bracket s /\ g_separator s = Some (tt, s') /\ partless total s'.
Lemma act_step k w l m s s' : act_and_written k w l m -> pos_of total (w ++ s) = k -> free s s' ->
  exists t r, (r = s \/ r = s') /\ g_any_simple_expression total (w ++ s) = Some (t, r) /\ told_tree t (map CAbbreviation m ++ map COutgoing l).
Proof.
  intros A K (S & M & B & G & P). destruct (act_and_begins k w l m s A) as (c & u & V & C). apply act_head_facts in C as (C & Q & _).
  assert (W : ws (w ++ s) = w ++ s) by (rewrite V; now apply ws_solid_head).
  assert (T : forall t r, g_compound_reference total (w ++ s) = Some (t, r) -> g_any_simple_expression total (w ++ s) = Some (t, r)).
  { intros t r E. unfold g_any_simple_expression, p_rule. rewrite W. apply or_yes, or_yes. rewrite or_no; [exact E|]. apply map_no, quote_no. rewrite V. now rewrite lc_solid. }
  unfold g_compound_reference, p_rule in T. rewrite W in T. destruct A as [k a x y m A|k a x y m t refs A L].
  - destruct (act_reads total a x y m s A (proj2 (proj2 S)) B M) as (g & R & I & J & N). rewrite <- app_assoc in *.
    exists (GTree (GCompoundReference (Some g) []) [GTree (GActReference g) []]), s. split; [now left|]. split.
    + apply T. apply or_yes. rewrite (bind_yes _ _ _ _ _ R). rewrite (bind_yes _ _ _ [] s); [reflexivity|]. apply many_no. unfold g_listed_reference. apply bind_no, reference_no, S.
    + unfold told_tree. cbn. rewrite N, I. unfold act_outgoing. cbn. rewrite J. cbn. rewrite !app_nil_r. rewrite K. do 6 f_equal. unfold pos_of, size in *. rewrite !app_length in *. lia.
  - pose proof (listed_begins _ _ _ _ s L) as Bt. rewrite <- !app_assoc in *.
    destruct (act_reads total a x y m (u8 " " ++ t ++ s) A (gap_space _) (begins_bracket _ Bt) (begins_no_more _ Bt)) as (g & R & I & J & N).
    destruct (listed_reads total a s s' _ t refs S G P L) with (n := length (u8 " " ++ t ++ s)) (t0 := u8 " " ++ t ++ s) as (gs & D & F).
    + unfold pos_of, size in *. rewrite !app_length in *. cbn [length] in *. lia.
    + change (ws (u8 " " ++ t ++ s)) with (ws (t ++ s)). now apply begins_opens.
    + lia.
    + exists (GTree (GCompoundReference (Some g) gs) [GTree (GActReference g) []]), s'. split; [now right|]. split.
      * apply T. apply or_yes. rewrite (bind_yes _ _ _ _ _ R). rewrite (bind_yes _ _ _ gs s'); [reflexivity|]. unfold p_many. now rewrite D.
      * unfold told_tree. cbn. rewrite N, I. unfold act_outgoing. cbn. rewrite J. cbn. rewrite F. cbn. cbn [app] in K. rewrite !app_nil_r, K. do 6 f_equal. unfold pos_of, size in *. rewrite !app_length in *. cbn [length] in *. lia.
Qed.

(** * Words after a reference *)

Lemma partless_nil : partless total [].
Proof. intros t. apply part_nothing. destruct t; split; reflexivity. Qed.
Lemma partless_ws s : partless total (ws s) <-> partless total s.
Proof. unfold partless. split; intros H t; specialize (H t); now rewrite ?part_rule_ws in *. Qed.
Lemma words_quiet u s : words u -> closed u s -> opens s -> s = [] \/ visible u -> partless total (u ++ s).
Proof.
  intros W K O V. apply partless_ws. destruct (ws_words u s) as (v & E & H & z & Z). rewrite E. apply partless_ws. destruct H as [->|(c & w & -> & C)].
  - destruct V as [->|(c & I & C)]; [apply partless_nil|]. exfalso. rewrite app_nil_r in Z. subst z. clear -E I C O.
    assert (L : ws (u ++ s) <> ws s). { clear E. induction u as [|d u IH]; [destruct I|]. cbn [app]. destruct (isspace_chr d) eqn:D.
      - destruct I as [->|I]; [congruence|]. unfold ws in *. cbn [drop_while]. rewrite D. auto.
      - rewrite (ws_solid_head d) by exact D. intros H. apply (f_equal (@length N)) in H. pose proof (ws_length s) as L. cbn [length] in H. rewrite app_length in H. lia. }
    contradiction.
  - apply words_partless; [rewrite Z in W; now apply words_suffix in W|exact C|rewrite Z in K; eapply closed_suffix; [discriminate|exact K]|exact O].
Qed.
Lemma opens_nil : opens []. Proof. now left. Qed.
Lemma words_silent u s : words u -> closed u s -> opens s -> s = [] \/ visible u -> breaks (u ++ s) -> silent total (u ++ s).
Proof. intros W K O V B. split; [now apply words_quiet|]. split; [apply words_lc; [apply W|exact O]|exact B]. Qed.
Lemma words_bracket u s : words u -> s = [] \/ visible u -> no_bracket (u ++ s).
Proof.
  intros [F _] V. left. induction F as [|c u C _ IH]; [destruct V as [->|(c & [] & _)]; discriminate|]. cbn [app]. destruct (isspace_chr c) eqn:E.
  - rewrite lc_space by exact E. apply IH. destruct V as [V|(d & [->|I] & D)]; [now left|congruence|right; now exists d].
  - rewrite lc_solid by exact E. intros ->. destruct C as [_ C]. apply C. cbn. tauto.
Qed.
Lemma words_starts u s e r : closed u s -> s = [] \/ visible u -> e <> [] -> Forall nonspace e -> ws (u ++ s) = e ++ r -> starts_with u e.
Proof.
  intros K V N E. revert K V. induction u as [|c u IH]; intros K V H.
  - destruct V as [->|(c & [] & _)]. destruct e; [contradiction|discriminate H].
  - destruct (isspace_chr c) eqn:C.
    + assert (H' : ws (u ++ s) = e ++ r) by (unfold ws in *; cbn [app drop_while] in H; now rewrite C in H). assert (V' : s = [] \/ visible u).
      { destruct V as [V|(d & [->|I] & D)]; [now left|congruence|right; now exists d]. }
      assert (N' : u <> []). { intros ->. destruct V' as [->|(d & [] & _)]. destruct e; [contradiction|discriminate H']. }
      destruct (IH (closed_suffix [c] u s N' K) V' H') as (z & v & -> & Z). exists (c :: z), v. split; [reflexivity|now constructor].
    + cbn [app] in H. rewrite ws_solid_head in H by exact C. destruct (within (c :: u) s e r ltac:(discriminate) K E H) as (v & -> & _). exists [], v. now split.
Qed.
Lemma words_no_more u s : closed u s -> s = [] \/ visible u -> Forall (fun x => ~ starts_with u x) [u8 "tv."; u8 "vhr."] -> no_more (u ++ s).
Proof.
  intros K V F e r I H. inversion_clear F as [|? ? F1 F']. inversion_clear F' as [|? ? F2 _].
  destruct I as [<-|[<-|[<-|[<-|[]]]]]; [apply F1|apply F2|apply F1|apply F2]; apply (words_starts _ s _ r K V); try discriminate; try (repeat constructor); rewrite H; reflexivity.
Qed.
Lemma words_no_separator u s : closed u s -> s = [] \/ visible u -> Forall (fun x => ~ starts_with u x) [u8 ","; u8 ";"; u8 "és"; u8 "valamint"; u8 "illetve"; u8 "vagy"] ->
  g_separator (u ++ s) = Some (tt, u ++ s).
Proof.
  intros K V F. assert (T : forall w r, In w [u8 ","; u8 ";"; u8 "és"; u8 "valamint"; u8 "illetve"; u8 "vagy"] -> ws (u ++ s) <> w ++ r).
  { intros w r I H. rewrite Forall_forall in F. apply (F w I). apply (words_starts u s w r K V); [| |exact H]; repeat (destruct I as [<-|I]; [try discriminate; repeat constructor|]); destruct I. }
  unfold g_separator. rewrite (bind_yes _ _ _ None (u ++ s)); [reflexivity|]. apply opt_no, bind_no. unfold g_list_separator, p_rule.
  rewrite or_no; [apply tok_none; intros r; rewrite ws_idem; apply T; cbn; tauto|]. rewrite or_no; [apply tok_none; intros r; rewrite ws_idem; apply T; cbn; tauto|].
  rewrite (bind_yes _ _ _ None (ws (u ++ s))); [apply toks_none; intros w r I; rewrite ws_idem; apply T; cbn [In] in *; tauto|]. apply opt_no, toks_none. intros w r I. rewrite ws_idem. apply T. cbn [In] in *. tauto.
Qed.
Lemma words_left v s' : words v -> g_separator v = Some (tt, s') -> words s'.
Proof. intros W H. destruct (takes_separator _ _ _ H) as (z & ->). now apply words_suffix in W. Qed.
Lemma separator_some s : exists s', g_separator s = Some (tt, s').
Proof. unfold g_separator, p_opt. unfold p_bind at 1. destruct ((g_list_separator ;~ _) s) as [[x r]|]; eexists; reflexivity. Qed.

(** * Sentences *)

Definition conv (ts : list g_tree) (l : list outgoing_reference) (m : list act_id_abbreviation) : Prop :=
  exists cs, Forall2 told_tree ts cs /\ all_references (concat cs) = l /\ act_id_abbreviations (concat cs) = m /\ semantic_data_of (concat cs) = [].
Lemma conv_app ts l m ts' l' m' : conv ts l m -> conv ts' l' m' -> conv (ts ++ ts') (l ++ l') (m ++ m').
Proof.
  intros (cs & F & A & B & C) (cs' & F' & A' & B' & C'). exists (cs ++ cs'). split; [now apply Forall2_app|]. rewrite concat_app. unfold all_references, act_id_abbreviations, semantic_data_of in *. rewrite !flat_map_app. now rewrite A, B, C, A', B', C'.
Qed.
Lemma conv_others ts : Forall other ts -> conv ts [] [].
Proof.
  intros F. exists (map (fun _ => []) ts). split.
  - induction F as [|t ts O _ IH]; [constructor|]. constructor; [rewrite O; reflexivity|exact IH].
  - assert (E : concat (map (fun _ : g_tree => @nil conversion) ts) = []) by (clear; induction ts; auto). now rewrite E.
Qed.
Lemma conv_act t l m : told_tree t (map CAbbreviation m ++ map COutgoing l) -> conv [t] l m.
Proof.
  intros T. exists [map CAbbreviation m ++ map COutgoing l]. split; [repeat constructor; exact T|]. cbn [concat]. rewrite app_nil_r. unfold all_references, act_id_abbreviations, semantic_data_of. rewrite !flat_map_app.
  assert (A : forall B (f : conversion -> list B), (forall x, f (CAbbreviation x) = []) -> flat_map f (map CAbbreviation m) = []) by (intros B f H; clear -H; induction m as [|x m IH]; [reflexivity|]; cbn; now rewrite H).
  assert (O : forall B (f : conversion -> list B), (forall x, f (COutgoing x) = []) -> flat_map f (map COutgoing l) = []) by (intros B f H; clear -H; induction l as [|x l IH]; [reflexivity|]; cbn; now rewrite H).
  rewrite (A outgoing_reference), (A semantic_data), (O act_id_abbreviation), (O semantic_data) by reflexivity. rewrite app_nil_r. split; [|split; [|reflexivity]].
  - clear. induction l as [|x l IH]; [reflexivity|]. cbn. now f_equal.
  - clear. induction m as [|x l IH]; [reflexivity|]. cbn. now f_equal.
Qed.
(* the rest of the text is read and says this *)
Definition rest (s : pystr) (l : list outgoing_reference) (m : list act_id_abbreviation) : Prop :=
  exists ts r, steps total s ts r /\ ws r = [] /\ conv ts l m.
Lemma rest_words v : words v -> rest v [] [].
Proof.
  intros W. destruct (words_steps total [] opens_nil (length v) v (le_n _) W) as (ts & r & S & O & E); [now left|]. rewrite app_nil_r in S. exists ts, r. split; [exact S|]. split; [exact E|now apply conv_others].
Qed.
(* words, then something else *)
Lemma rest_after u w t l m l' m' : words u -> closed u w -> opens w -> (exists r, g_any_simple_expression total w = Some (t, r) /\ rest r l' m') -> conv [t] l m -> rest (u ++ w) (l ++ l') (m ++ m').
Proof.
  intros W K O (r & G & ts & q & S & E & C) T. destruct (words_steps total w O (length u) u (le_n _) W K) as (ts0 & r0 & S0 & F0 & E0).
  exists (ts0 ++ t :: ts), q. split; [eapply steps_app; [exact S0|]; econstructor; [|exact S]|split; [exact E|]].
  - rewrite <- simple_ws, E0, simple_ws. exact G.
  - change (l ++ l') with ([] ++ l ++ l'). change (m ++ m') with ([] ++ m ++ m'). apply conv_app; [now apply conv_others|]. now apply (conv_app [t]).
Qed.

Definition goes_on (b : before) (s : pystr) (l : list outgoing_reference) (m : list act_id_abbreviation) : Prop :=
  match b with
  | Nothing => True
  | Reference => silent total s
  | Act => exists s', free s s' /\ rest s' l m
  end.
Lemma between_on b u w l m : words u -> spaced u -> between b u -> opens w -> rest (u ++ w) l m -> goes_on b (u ++ w) l m.
Proof.
  intros W S B O R. destruct b; cbn [between goes_on] in *; [exact Logic.I| |].
  - destruct B as [B V]. apply words_silent; auto; [now right|]. destruct u; [destruct V as (c & [] & _)|exact B].
  - destruct B as (B & V & F). assert (K : closed u w) by now right. exists (u ++ w). split; [|exact R]. rewrite Forall_forall in F. split.
    { apply words_silent; auto. destruct u; [destruct V as (c & [] & _)|exact B]. }
    split; [apply words_no_more; auto; repeat constructor; apply F; cbn; tauto|]. split; [apply words_bracket; auto|].
    split; [apply words_no_separator; auto; repeat constructor; apply F; cbn; tauto|]. apply words_quiet; auto.
Qed.
Theorem told_rest b k s l m : told b k s l m -> pos_of total s = k -> rest s l m /\ goes_on b s l m.
Proof.
  intros T. induction T as [b k v W A|b k u r w s l m W S B A R T IH|b k u w s l l' m m' W S B A T IH]; intros K.
  - split; [now apply rest_words|]. destruct b; cbn [after goes_on] in *; [exact Logic.I| |].
    + rewrite <- (app_nil_r v). apply words_silent; auto; [now left|apply opens_nil|now rewrite app_nil_r].
    + destruct A as [A F]. destruct (separator_some v) as (s' & G). assert (W' : words s') by now apply (words_left v). exists s'. split; [|now apply rest_words]. split.
      { rewrite <- (app_nil_r v). apply words_silent; auto; [now left|apply opens_nil|now rewrite app_nil_r]. }
      split; [rewrite <- (app_nil_r v); apply words_no_more; auto; now left|]. split; [rewrite <- (app_nil_r v); apply words_bracket; auto|]. split; [exact G|].
      rewrite <- (app_nil_r s'). apply words_quiet; auto; [now left|apply opens_nil].
  - assert (K' : pos_of total s = k + size u + size w) by (unfold pos_of, size in *; rewrite !app_length in K; lia). destruct (IH K') as [Rs G]. cbn [goes_on] in G.
    destruct (reference_step total r w s A R G) as (t & E & C). pose proof (reference_begins r w s R) as Bg. destruct (begins_opens _ Bg) as [O _].
    assert (H : rest (u ++ w ++ s) (mk_outgoing (k + size u) (k + size u + size w) r :: l) m).
    { change (rest (u ++ w ++ s) ([mk_outgoing (k + size u) (k + size u + size w) r] ++ l) ([] ++ m)). apply (rest_after u (w ++ s) t); auto; [now right|now exists s|].
      apply conv_act. cbn [map app]. replace (k + size u + size w) with (pos_of total s). replace (k + size u) with (pos_of total (w ++ s)); [exact C|]. unfold pos_of, size in *. rewrite !app_length in *. lia. }
    split; [exact H|]. now apply between_on.
  - assert (K' : pos_of total s = k + size u + size w) by (unfold pos_of, size in *; rewrite !app_length in K; lia). destruct (IH K') as [Rs (s' & F & Rs')].
    assert (P : pos_of total (w ++ s) = k + size u) by (unfold pos_of, size in *; rewrite !app_length in *; lia).
    destruct (act_step _ w l m s s' A P F) as (t & r & Q & E & C). pose proof (act_opens _ w l m s A) as O.
    assert (H : rest (u ++ w ++ s) (l ++ l') (m ++ m')).
    { apply (rest_after u (w ++ s) t); auto; [now right| |now apply conv_act]. exists r. split; [exact E|]. destruct Q as [->| ->]; assumption. }
    split; [exact H|]. now apply between_on.
Qed.
End Total.

Lemma trees_convert ts cs : Forall2 told_tree ts cs -> told_tree (GTree GOther ts) (concat cs).
Proof.
  intros F. unfold told_tree. cbn [convert_depth_first]. induction F as [|t c ts cs T _ IH]; [reflexivity|]. unfold told_tree in T. rewrite T. cbn [bind]. destruct (_ ts) as [x|] eqn:E; [|discriminate IH].
  cbn in *. injection IH as IH. rewrite app_nil_r in IH. subst x. now rewrite app_nil_r.
Qed.
Theorem told_found text l m : told Nothing 0 text l m -> ordinary text -> visible text -> grammar_analyzer text = Some (mk_analysis l [] m).
Proof.
  intros T O V. destruct (told_rest (Z.of_nat (length text)) Nothing 0 text l m T) as [(ts & r & S & E & cs & F & A & B & C) _]; [unfold pos_of; lia|].
  assert (N : ts <> []). { intros ->. inversion S; subst. apply ws_blank in E. destruct V as (c & I & V). rewrite Forall_forall in E. apply E in I. congruence. }
  unfold grammar_analyzer, analyzer_of, grammar_parse. rewrite (ordinary_start text O _ _ (steps_read _ _ _ _ S N E)). cbv iota beta. rewrite (trees_convert ts cs F). now rewrite A, B, C.
Qed.
