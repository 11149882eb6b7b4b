(* Quotes, text amendments, read forwards. *)
From Coq Require Import Lia.
From Verif Require Import PyBase PyBaseFacts UnicodeAlnum NumModel IdModel LineModel DateModel RefModel RefSpec TreeModel StructModel SemModel GramModel GramSpec PegModel PegSpec PegSpec2 PegSpec3 PegProofs PegProofs2 PegProofs7 PegProofs10 PegProofs13 PegProofs14 PegProofs22 PegProofs23 PegProofs24 PegProofs25 PegProofs26 PegProofs27 PegProofs28 PegProofs29 PegProofs30 PegProofs31 PegProofs32 PegProofs33 PegProofs35.
Local Open Scope Z_scope.

Lemma many1_rounds {A} (p : parser A) s x l r : eats p -> p_rounds (Datatypes.S (length s)) p s = (x :: l, r) -> p_many1 p s = Some (x :: l, r).
Proof.
  intros P D. unfold p_many1. cbn [p_rounds] in D. destruct (p s) as [[y t]|] eqn:E; [|discriminate D].
  rewrite (bind_yes _ _ _ _ _ E). destruct (p_rounds _ _ t) as [l' q] eqn:R in D. injection D as -> -> ->. apply eats_length in E as EL; [|exact P].
  rewrite (bind_yes _ _ _ l r); [reflexivity|]. unfold p_many. f_equal. rewrite <- R. apply rounds_fuel; [exact P|lia|lia].
Qed.

(** * Quotes *)

Definition quote_tree (x : pystr) : g_quote := [Leaf (u8 "„"); Leaf x; Node []; Leaf (u8 "”")].
Lemma quote_reads x s s0 : plain_quote x -> ws s0 = quoted x ++ s -> g_quote_rule s0 = Some (quote_tree x, s).
Proof.
  intros [P Q] E. assert (L : (2 <= length s0)%nat). { pose proof (ws_length s0) as H. rewrite E in H. unfold quoted in H. rewrite !app_length in H. cbn [length] in H. lia. }
  unfold g_quote_rule. destruct (length s0) as [|[|n]]; [lia|lia|]. cbn [quote_loop]. unfold p_rule at 1. rewrite E.
  assert (F : forallb c_not_quote x = true).
  { apply forallb_forall. intros c C. unfold c_not_quote. destruct (in_str (u8 "„”") c) eqn:I; [|reflexivity]. apply in_str_in in I. destruct I as [<-|[<-|[]]]; contradiction. }
  assert (K : quoted x ++ s = u8 "„" ++ x ++ u8 "”" ++ s) by (unfold quoted; rewrite <- !app_assoc; reflexivity). rewrite K.
  rewrite (bind_yes _ _ _ (u8 "„") (x ++ u8 "”" ++ s)) by (apply (tok_yes (u8 "„")); [reflexivity|intros H; discriminate H]).
  rewrite (bind_yes _ _ _ x (u8 "”" ++ s)).
  - rewrite (bind_yes _ _ _ [] (u8 "”" ++ s)) by (apply many_no, bind_no; unfold p_rule; apply bind_no, tok_no; discriminate).
    rewrite (bind_yes _ _ _ (u8 "”") s) by (apply (tok_yes (u8 "”")); [reflexivity|intros H; discriminate H]). reflexivity.
  - rewrite re_star. f_equal. assert (T : take_while c_not_quote (x ++ u8 "”" ++ s) = x) by (apply take_while_app; [exact F|reflexivity]).
    f_equal; [exact T|]. pose proof (take_drop_while c_not_quote (x ++ u8 "”" ++ s)) as D. rewrite T in D. now apply app_inv_head in D.
Qed.
Lemma quote_string x : convert_quote_to_string (quote_tree x) = Ok (str_strip x).
Proof.
  assert (K : convert_quote_to_string (quote_tree x) = Ok (str_strip (x ++ []))) by reflexivity. now rewrite K, app_nil_r.
Qed.
Lemma quoted_solid x s : ws (quoted x ++ s) = quoted x ++ s.
Proof. unfold quoted. cbn [app]. now apply ws_solid_head. Qed.
Lemma quoted_opens x s : opens (quoted x ++ s).
Proof.
  right. exists 8222%N. eexists. split; [reflexivity|]. split; [reflexivity|]. split; [discriminate|]. split; [unfold is_dash; cbn; intuition discriminate|]. split; intros r; discriminate.
Qed.
(* a quote begins here, perhaps after an article *)
Definition quote_at (s0 s : pystr) : Prop := exists o s1, p_opt g_az (ws s0) = Some (o, s1) /\ ws s1 = s.
Lemma az_blind s : p_opt g_az (ws s) = Some (None, ws s) \/ exists o r, p_opt g_az (ws s) = Some (Some o, r) /\ p_opt g_az s = Some (Some o, r).
Proof. unfold p_opt. assert (K : g_az (ws s) = g_az s) by apply blind_rule. rewrite K. destruct (g_az s) as [[o r]|]; [right; eauto|now left]. Qed.
Lemma quote_at_here s0 s : quote_at s0 s -> exists o s1, p_opt g_az s0 = Some (o, s1) /\ ws s1 = s.
Proof.
  intros (o & s1 & H & E). destruct (az_blind s0) as [N|(o' & r & Y & Z)].
  - rewrite H in N. injection N as -> ->. exists None, s0. rewrite ws_idem in E. split; [|exact E]. unfold p_opt in *. assert (K : g_az (ws s0) = g_az s0) by apply blind_rule. rewrite K in H. destruct (g_az s0) as [[o r]|]; [discriminate H|reflexivity].
  - rewrite H in Y. injection Y as -> ->. eauto.
Qed.
Lemma quote_at_ws s0 s : quote_at s0 s -> quote_at (ws s0) s.
Proof. intros (o & s1 & H & E). exists o, s1. now rewrite ws_idem. Qed.
Lemma quote_at_once s0 x s : ws s0 = quoted x ++ s -> quote_at s0 (quoted x ++ s).
Proof. intros E. exists None, (quoted x ++ s). rewrite E. split; [|apply quoted_solid]. apply opt_no. reflexivity. Qed.
Lemma quote_at_article q x s : quote_article q -> quote_at (q ++ quoted x ++ s) (quoted x ++ s).
Proof. intros [<-|[<-|[]]]; (eexists; eexists; split; [reflexivity|]; apply quoted_solid). Qed.

Lemma separator_at p t : separator p -> p_toks conjunctions t = None -> g_az t = None -> ws t = t -> exists r, g_separator (p ++ t) = Some (tt, r) /\ ws r = t.
Proof.
  intros (x & a & X & A & ->) N Z E.
  assert (K : p_toks conjunctions (a ++ t) = None) by (repeat (destruct A as [<-|A]; [first [exact N|reflexivity]|]); destruct A).
  destruct (list_separator_yes x (a ++ t) X K) as (y & Y).
  assert (AZ : exists o r, p_opt g_az (32%N :: a ++ t) = Some (o, r) /\ ws r = t).
  { unfold g_az in *. repeat (destruct A as [<-|A]; [|]); [| | |destruct A].
    - exists None, (32%N :: t). split; [|exact E]. apply opt_no. now rewrite rule_space.
    - eexists. exists t. split; [|exact E]. reflexivity.
    - eexists. exists t. split; [|exact E]. reflexivity. }
  destruct AZ as (o & r & O & R). exists r. split; [|exact R]. unfold g_separator. replace ((x ++ u8 " " ++ a) ++ t) with (x ++ 32%N :: a ++ t) by (now rewrite <- !app_assoc).
  erewrite bind_yes; [reflexivity|]. apply opt_yes. rewrite (bind_yes _ _ _ _ _ Y). exact O.
Qed.
Lemma separator_quote p x s : separator p -> exists r, g_separator (p ++ quoted x ++ s) = Some (tt, r) /\ ws r = quoted x ++ s.
Proof. intros P. apply separator_at; [exact P|reflexivity|reflexivity|apply quoted_solid]. Qed.

(** * Replacements *)

Lemma replaced_reads x y w s s0 : replacement_written x y w -> quote_at s0 (w ++ s) -> g_replaced s0 = Some ((quote_tree x, quote_tree y), s).
Proof.
  intros (a & b & z & X & Y & A & B & Z & ->) Q. apply quote_at_here in Q as (o & s1 & Q & E). unfold g_replaced. rewrite (bind_yes _ _ _ _ _ Q). rewrite <- !app_assoc in E. rewrite (bind_yes _ _ _ _ _ (quote_reads x _ s1 X E)).
  assert (T : exists t, p_toks [u8 "szövegrészek"; u8 "szövegrész"] (a ++ b ++ z ++ quoted y ++ s) = Some (t, b ++ z ++ quoted y ++ s)).
  { destruct A as [<-|[<-|[]]]; destruct B as [<-|[<-|[]]]; eexists; reflexivity. }
  destruct T as (t & T). rewrite (bind_yes _ _ _ _ _ T).
  assert (V : exists v, p_toks [u8 "helyébe"; u8 "helyett"] (b ++ z ++ quoted y ++ s) = Some (v, z ++ quoted y ++ s)).
  { destruct B as [<-|[<-|[]]]; destruct Z as [<-|[<-|[]]]; eexists; reflexivity. }
  destruct V as (v & V). rewrite (bind_yes _ _ _ _ _ V). destruct (quote_at_here _ _ (quote_at_article z y s Z)) as (o' & s2 & H & E2).
  rewrite (bind_yes _ _ _ _ _ H), (bind_yes _ _ _ _ _ (quote_reads y s s2 Y E2)). reflexivity.
Qed.
Definition rep_step : parser (g_quote * g_quote) := x <~ g_text_amendment_part ;; g_separator ;~ p_ret x.
Definition text_words : list pystr := [u8 "szöveggel"; u8 "szöveg"; u8 "szövegrész"].
Lemma text_word_yes e c s : text_word e -> In c (u8 " ,;") -> (p_and g_list_separator <|> p_map (fun _ => tt) (p_toks text_words)) (e ++ c :: s) = Some (tt, c :: s).
Proof. intros E C. unfold text_word in E. destruct E as [<-|[<-|[<-|[]]]]; (destruct C as [<-|[<-|[<-|[]]]]; reflexivity). Qed.
Lemma separator_first p : separator p -> exists c q, p = c :: q /\ In c (u8 " ,;").
Proof. intros (x & a & X & _ & ->). repeat (destruct X as [<-|X]; [eexists; eexists; split; [reflexivity|cbn; tauto]|]). destruct X. Qed.
Lemma enters_reads e : enters e -> g_enters e = Some (tt, []).
Proof. intros [<-|[<-|[]]]; reflexivity. Qed.
Lemma eats_rep_step : eats rep_step.
Proof.
  apply eats_first; [|intros; peg]. apply eats_rule, eats_first; [|intros; peg]. apply eats_second; [peg|intros _]. apply eats_first; [apply eats_ends, ends_quote|intros; peg].
Qed.
Definition trees (p : pystr * pystr) : g_quote * g_quote := (quote_tree (fst p), quote_tree (snd p)).
Lemma replacement_quoted x y w : replacement_written x y w -> exists v, w = quoted x ++ v.
Proof. intros (a & b & z & _ & _ & _ & _ & _ & ->). eauto. Qed.
Lemma replacements_quoted l v : replacements_written l v -> exists x u, v = quoted x ++ u.
Proof. intros R. destruct R as [x y w e R _|x y w e p l s R _ _ _]; apply replacement_quoted in R as (u & ->); rewrite <- app_assoc; eauto. Qed.
Lemma replacements_reads l v f : replacements_written l v -> enters f -> forall n t0, quote_at t0 (v ++ f) -> (length t0 <= n)%nat -> p_rounds n rep_step t0 = (map trees l, f).
Proof.
  intros R F. assert (F' : exists g, f = 32%N :: g) by (destruct F as [<-|[<-|[]]]; eauto). destruct F' as (g & F').
  assert (L : forall s t0, quote_at t0 s -> (length s <= length t0)%nat).
  { intros s t0 (o & s1 & H & E). assert (K : takes (p_opt g_az)) by peg. destruct (K _ _ _ H) as (u & U). apply (f_equal (@length BinNums.N)) in U. rewrite app_length in U. pose proof (ws_length t0). pose proof (ws_length s1). rewrite E in *. lia. }
  induction R as [x y w e W E|x y w e p l s W E P R IH]; intros n t0 Q N; rewrite <- !app_assoc in Q.
  - pose proof (L _ _ Q) as B. destruct (replacement_quoted _ _ _ W) as (u & Hu). assert (B' : (0 < length w)%nat) by (rewrite Hu; unfold quoted; rewrite !app_length; cbn [length]; lia). rewrite !app_length in B.
    destruct n as [|n]; [lia|]. cbn [p_rounds]. unfold rep_step at 1, g_text_amendment_part at 1, p_rule at 1. unfold p_bind at 1.
    rewrite (bind_yes _ _ _ _ _ (replaced_reads _ _ _ _ _ W (quote_at_ws _ _ Q))). subst f. fold text_words. rewrite (bind_yes _ _ _ _ _ (text_word_yes e 32%N g E ltac:(cbn; tauto))). cbn [p_ret].
    destruct F as [F|[F|[]]]; injection F as <-; (destruct n; reflexivity).
  - destruct (replacements_quoted _ _ R) as (x' & u' & V). pose proof (L _ _ Q) as B. destruct (replacement_quoted _ _ _ W) as (u & Hu). assert (B' : (0 < length w)%nat) by (rewrite Hu; unfold quoted; rewrite !app_length; cbn [length]; lia). rewrite !app_length in B.
    destruct n as [|n]; [lia|]. cbn [p_rounds]. unfold rep_step at 1, g_text_amendment_part at 1, p_rule at 1. unfold p_bind at 1.
    rewrite (bind_yes _ _ _ _ _ (replaced_reads _ _ _ _ _ W (quote_at_ws _ _ Q))). fold text_words.
    rewrite V in *. rewrite <- app_assoc in *. destruct (separator_quote p x' (u' ++ f) P) as (r & S & RW).
    assert (M : (p_and g_list_separator <|> p_map (fun _ => tt) (p_toks text_words)) (e ++ p ++ quoted x' ++ u' ++ f) = Some (tt, p ++ quoted x' ++ u' ++ f)).
    { destruct E as [->|E].
      - apply or_yes. cbn [app]. destruct P as (y0 & a & Y & A & ->). rewrite <- !app_assoc. destruct (list_separator_yes y0 (a ++ quoted x' ++ u' ++ f) Y) as (z & Z); [repeat (destruct A as [<-|A]; [reflexivity|]); destruct A|].
        unfold p_and. assert (Z' : g_list_separator (y0 ++ u8 " " ++ a ++ quoted x' ++ u' ++ f) = Some (z, u8 " " ++ a ++ quoted x' ++ u' ++ f)) by exact Z. now rewrite Z'.
      - destruct (separator_first p P) as (c & q & -> & C). exact (text_word_yes e c _ E C). }
    rewrite (bind_yes _ _ _ _ _ M). cbn [p_ret]. rewrite (bind_yes _ _ _ _ _ S). cbn [p_ret]. rewrite (IH n r); [reflexivity|exact (quote_at_once _ _ _ RW)|].
    destruct (takes_separator _ _ _ S) as (v & K). apply (f_equal (@length BinNums.N)) in K. rewrite !app_length in *. lia.
Qed.
Lemma replacements_many l v f q : replacements_written l v -> enters f -> quote_article q -> p_many1 rep_step (q ++ v ++ f) = Some (map trees l, f).
Proof.
  intros R F Q. destruct (replacements_quoted _ _ R) as (x & u & V). assert (K : quote_at (q ++ v ++ f) (v ++ f)) by (rewrite V, <- app_assoc; now apply quote_at_article).
  pose proof (replacements_reads l v f R F (Datatypes.S (length (q ++ v ++ f))) (q ++ v ++ f) K ltac:(lia)) as H. destruct R; cbn [map] in *; apply many1_rounds; try exact H; apply eats_rep_step.
Qed.

(** * Repealed texts *)

Definition text_step : parser g_quote := p_opt g_az ;~ q <~ g_quote_rule ;; p_opt (p_tok (u8 "szövegrész")) ;~ g_separator ;~ p_ret q.
Lemma eats_text_step : eats text_step.
Proof. apply eats_second; [peg|intros _]. apply eats_first; [apply eats_ends, ends_quote|intros; peg]. Qed.
Lemma texts_quoted l v : texts_written l v -> exists x u, v = quoted x ++ u.
Proof. intros R. destruct R; eauto. Qed.
Lemma part_word_end e : In e [u8 ""; u8 " szövegrész"] -> exists o, p_opt (p_tok (u8 "szövegrész")) (e ++ u8 ".") = Some (o, u8 ".").
Proof. intros [<-|[<-|[]]]; eexists; reflexivity. Qed.
Lemma part_word_yes e p s : In e [u8 ""; u8 " szövegrész"] -> separator p -> exists o, p_opt (p_tok (u8 "szövegrész")) (e ++ p ++ s) = Some (o, p ++ s).
Proof.
  intros E (x & a & X & _ & ->). rewrite <- !app_assoc. destruct E as [<-|[<-|[]]]; (repeat (destruct X as [<-|X]; [eexists; reflexivity|]); destruct X).
Qed.
Lemma texts_reads l v : texts_written l v -> forall n t0, quote_at t0 (v ++ u8 ".") -> (length t0 <= n)%nat -> p_rounds n text_step t0 = (map quote_tree l, u8 ".").
Proof.
  assert (L : forall s t0, quote_at t0 s -> (length s <= length t0)%nat).
  { intros s t0 (o & s1 & H & E). assert (K : takes (p_opt g_az)) by peg. destruct (K _ _ _ H) as (u & V). apply (f_equal (@length BinNums.N)) in V. rewrite app_length in V. pose proof (ws_length t0). pose proof (ws_length s1). rewrite E in *. lia. }
  intros R. induction R as [x e X E|x e p l s X E P R IH]; intros n t0 Q N; rewrite <- !app_assoc in Q.
  - pose proof (L _ _ Q) as B. unfold quoted in B. rewrite !app_length in B. cbn [length] in B. destruct n as [|n]; [lia|]. cbn [p_rounds].
    destruct (quote_at_here _ _ Q) as (o & s1 & Az & W). unfold text_step at 1. destruct (part_word_end e E) as (o' & O).
    rewrite (bind_yes _ _ _ _ _ Az), (bind_yes _ _ _ _ _ (quote_reads x _ s1 X W)), (bind_yes _ _ _ _ _ O). change (g_separator (u8 ".")) with (Some (tt, u8 ".")) || idtac.
    rewrite (bind_yes _ _ _ tt (u8 ".")) by reflexivity. cbn [p_ret]. destruct n; reflexivity.
  - destruct (texts_quoted _ _ R) as (x' & u' & V). pose proof (L _ _ Q) as B. unfold quoted at 1 in B. rewrite !app_length in B. cbn [length] in B. destruct n as [|n]; [lia|]. cbn [p_rounds].
    destruct (quote_at_here _ _ Q) as (o & s1 & Az & W). unfold text_step at 1. destruct (part_word_yes e p (s ++ u8 ".") E P) as (o' & O).
    rewrite (bind_yes _ _ _ _ _ Az), (bind_yes _ _ _ _ _ (quote_reads x _ s1 X W)), (bind_yes _ _ _ _ _ O).
    rewrite V in *. rewrite <- app_assoc in *. destruct (separator_quote p x' (u' ++ u8 ".") P) as (r & S & RW). rewrite (bind_yes _ _ _ _ _ S). cbn [p_ret]. rewrite (IH n r); [reflexivity|exact (quote_at_once _ _ _ RW)|].
    destruct (takes_separator _ _ _ S) as (v & K). apply (f_equal (@length BinNums.N)) in K. rewrite !app_length in *. cbn [length] in K. lia.
Qed.
Lemma texts_many l v q : texts_written l v -> quote_article q -> p_many text_step (q ++ v ++ u8 ".") = Some (map quote_tree l, u8 ".").
Proof.
  intros R Q. destruct (texts_quoted _ _ R) as (x & u & V). unfold p_many. f_equal. apply (texts_reads l v R); [|lia]. rewrite V, <- app_assoc. now apply quote_at_article.
Qed.
Section Total.
Variable total : Z.
Lemma article_silent q x s : quote_article q -> silent total (q ++ quoted x ++ s) /\ g_separator (q ++ quoted x ++ s) = Some (tt, q ++ quoted x ++ s) /\ partless total (q ++ quoted x ++ s).
Proof.
  intros Q. assert (S : silent total (q ++ quoted x ++ s)).
  { assert (K : words q /\ spaced q /\ visible q /\ breaks q).
    { assert (B : forall c w, words (w ++ [c]) -> isspace_chr c = true -> visible (w ++ [c]) -> breaks (w ++ [c]) -> words (w ++ [c]) /\ spaced (w ++ [c]) /\ visible (w ++ [c]) /\ breaks (w ++ [c])) by (intros c w; intros; repeat split; auto; try apply H; right; eauto).
      destruct Q as [<-|[<-|[]]]; [apply (B 32%N (u8 " a"))|apply (B 32%N (u8 " az"))]; try reflexivity; try (now apply words_of); try (cbn; tauto); (exists 97%N; split; [cbn; tauto|reflexivity]). }
    destruct K as (K1 & K2 & K3 & K4). apply words_silent; auto; [now right|apply quoted_opens|]. destruct q; [destruct K3 as (c & [] & _)|exact K4]. }
  split; [exact S|]. split; [|apply S]. destruct Q as [<-|[<-|[]]]; reflexivity.
Qed.
Lemma dot_silent : silent total (u8 ".") /\ g_separator (u8 ".") = Some (tt, u8 ".") /\ partless total (u8 ".").
Proof.
  assert (S : silent total (u8 ".")).
  { apply (words_silent total (u8 ".") []); [|now left|apply opens_nil|now left|cbn; tauto]. split; [apply Forall_forall; intros c [<-|[]]; split; [lia|cbn; intuition discriminate]|]. intros x (c & w & e & -> & C & _) (a & b & E). destruct a as [|d a]; [injection E as <- _|destruct a; discriminate E].
    destruct C as [C|C]; [unfold is_capital in C; lia|cbn in C; intuition discriminate]. }
  split; [exact S|]. split; [reflexivity|apply S].
Qed.
End Total.
