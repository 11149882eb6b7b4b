(* Insertions, read forwards. *)
From Coq Require Import Lia.
From Verif Require Import PyBase PyBaseFacts UnicodeAlnum NumModel IdModel LineModel DateModel RefModel TreeModel StructModel SemModel GramModel GramSpec PegModel PegSpec PegSpec2 PegSpec3 PegProofs PegProofs2 PegProofs7 PegProofs10 PegProofs14 PegProofs22 PegProofs23 PegProofs24 PegProofs25 PegProofs26 PegProofs27 PegProofs28 PegProofs29 PegProofs30 PegProofs31 CiteSpec CiteProofs CiteProofs2 CiteProofs4.
Local Open Scope Z_scope.

Section Total.
Variable total : Z.
Local Notation part_parser := (part_parser total).
Notation partless := (partless total).
Notation silent := (silent total).
Notation level_at := (level_at total).

(** * Levels *)

Lemma level_shape k w p s : level_at k w p s -> w <> [] -> exists x, w = 32%N :: x /\ forall s', starts (x ++ s') /\ ~ is_dash (lc (x ++ s')).
Proof.
  intros [[-> _]|(t & x & e & items & _ & W & _ & _ & _ & ->)] N; [contradiction|]. eexists. split; [reflexivity|]. intros s'. rewrite <- !app_assoc. split; [eapply items_starts; [exact W|]; intros r; destruct t; discriminate|]. eapply items_lc. exact W.
Qed.
Definition mild (s : pystr) : Prop := gap s /\ ~ is_dash (lc s).
Lemma silent_mild s : silent s -> mild s. Proof. intros (_ & A & B). now split. Qed.
Lemma level_mild k p w s s' : level_at k w p s -> w <> [] -> mild (w ++ s').
Proof. intros W N. destruct (level_shape k w p s W N) as (x & -> & X). split; [now left|]. cbn [app]. rewrite lc_space by reflexivity. apply X. Qed.
Lemma level_reads k p w s : level_at k w p s -> w <> [] -> mild s ->
  exists t g, level_of t = k /\ part_parser t (w ++ s) = Some (g, s) /\ says_list k p [g] /\ forall t', passes t' t -> part_parser t' (w ++ s) = None.
Proof.
  intros LL N [G D]. destruct (listed_cases _ _ _ _ _ LL) as [[-> _]|(t & x & e & items & L & W & E & O & J & ->)]; [contradiction|]. rewrite <- !app_assoc.
  destruct (listed_reads total t x items e s p W O J E G D) as (g & P & Y). exists t, g. split; [exact L|]. split; [exact P|]. split; [rewrite <- L; exact Y|]. intros t' H. rewrite part_space. eapply list_passed; eassumption.
Qed.
Lemma level_passed t k p w s s' : (forall t', level_of t' = k -> passes t t') -> level_at k w p s -> w <> [] -> part_parser t (w ++ s') = None.
Proof.
  intros H LL N. destruct (listed_cases _ _ _ _ _ LL) as [[-> _]|(t' & x & e & items & L & W & E & O & J & ->)]; [contradiction|]. rewrite <- !app_assoc. rewrite part_space. eapply list_passed; [now apply H|exact W|exact O|exact E].
Qed.
Lemma article_reads p w s : level_at 1 w p s -> w <> [] -> mild s -> exists g, g_article_reference total (w ++ s) = Some (g, s) /\ says_list 1 p [g].
Proof. intros W N M. destruct (level_reads 1 p w s W N M) as (t & g & L & P & Y & _). destruct t; try discriminate L. exists g. auto. Qed.
Lemma paragraph_reads p w s : level_at 2 w p s -> w <> [] -> mild s -> exists g, g_paragraph_reference total (w ++ s) = Some (g, s) /\ says_list 2 p [g].
Proof. intros W N M. destruct (level_reads 2 p w s W N M) as (t & g & L & P & Y & _). destruct t; try discriminate L. exists g. auto. Qed.
Lemma any_point_reads p w s : level_at 3 w p s -> w <> [] -> mild s -> exists g, g_any_point total (w ++ s) = Some (g, s) /\ says_list 3 p [g].
Proof.
  intros W N M. destruct (level_reads 3 p w s W N M) as (t & g & L & P & Y & F). exists g. split; [|exact Y]. unfold g_any_point. destruct t; try discriminate L; [now apply or_yes|].
  rewrite or_no; [exact P|]. apply (F PAlphabeticPoint). exact I.
Qed.
Lemma any_subpoint_reads p w s : level_at 4 w p s -> w <> [] -> mild s -> exists g, g_any_subpoint total (w ++ s) = Some (g, s) /\ says_list 4 p [g].
Proof.
  intros W N M. destruct (level_reads 4 p w s W N M) as (t & g & L & P & Y & F). exists g. split; [|exact Y]. unfold g_any_subpoint. destruct t; try discriminate L; [now apply or_yes|].
  rewrite or_no; [exact P|]. apply (F PAlphabeticSubpoint). exact I.
Qed.
Lemma article_passed k p w s s' : (2 <= k)%nat -> level_at k w p s -> w <> [] -> g_article_reference total (w ++ s') = None.
Proof. intros K. apply (level_passed PArticle). intros t <-. destruct t; cbn in *; try exact Logic.I. lia. Qed.
Lemma paragraph_passed k p w s s' : (3 <= k)%nat -> level_at k w p s -> w <> [] -> g_paragraph_reference total (w ++ s') = None.
Proof. intros K. apply (level_passed PParagraph). intros t <-. destruct t; cbn in *; try exact Logic.I; lia. Qed.

(** * The words "a következő" *)

Notation next := (u8 " a következő") (only parsing).
Lemma words_of u : forallb (fun c => negb (c_09 c) && negb (in_str (u8 "():„−–-") c) && negb (c =? 46)%N) u = true -> words u.
Proof.
  intros H. rewrite forallb_forall in H. split.
  - apply Forall_forall. intros c C. apply H in C. split; [unfold c_09 in C; lia|]. intros I. apply in_str_in in I. rewrite I in C. lia.
  - intros y Y Hy. apply (has_dot y u Y) in Hy. apply H in Hy. discriminate Hy.
Qed.
Lemma word_quiet u s : forallb (fun c => negb (c_09 c) && negb (in_str (u8 "():„−–-") c) && negb (c =? 46)%N) (u ++ u8 " ") = true -> visible u -> opens s -> partless (u ++ u8 " " ++ s).
Proof.
  intros W (c & I & C) O. rewrite app_assoc. apply words_quiet; [now apply words_of|right; right; eexists; eexists; split; [reflexivity|reflexivity]|exact O|]. right. exists c. split; [apply in_or_app; now left|exact C].
Qed.
Lemma next_partless k p w s : level_at k w p s -> w <> [] -> partless (next ++ w ++ s) /\ partless (u8 "következő" ++ w ++ s).
Proof.
  intros W N. destruct (level_shape k w p s W N) as (x & -> & B). destruct (starts_opens _ (proj1 (B s))) as [O _]. split.
  - apply (word_quiet next (x ++ s)); [reflexivity|exists 97%N; split; [cbn; tauto|reflexivity]|exact O].
  - apply (word_quiet (u8 "következő") (x ++ s)); [reflexivity|exists 107%N; split; [cbn; tauto|reflexivity]|exact O].
Qed.
Lemma next_mild s : mild (next ++ s).
Proof. split; [now left|]. change (lc (next ++ s)) with 97%N. unfold is_dash. cbn. intuition discriminate. Qed.
Lemma next_yes k p w s : level_at k w p s -> w <> [] -> g_insertion_token (next ++ w ++ s) = Some (u8 "a következő", w ++ s).
Proof.
  intros W N. destruct (level_shape k w p s W N) as (x & -> & _). reflexivity.
Qed.
Lemma starts_next t : starts t -> forall r, t <> u8 "a következő" ++ r.
Proof.
  intros B r H. destruct B as [n z N _|n z N _|c z C|c z C Z|c d z C F Z].
  - destruct (digits_head n N) as (c & m & -> & C). injection H as -> _. discriminate C.
  - destruct (digits_head n N) as (c & m & -> & C). injection H as -> _. discriminate C.
  - discriminate H.
  - destruct z as [|e z]; [discriminate H|]. injection H as _ -> _. cbn in Z. intuition discriminate.
  - injection H as _ -> _. unfold is_small in F. lia.
Qed.
Lemma level_no_next k p w s : level_at k w p s -> w <> [] -> g_insertion_token (w ++ s) = None.
Proof.
  intros W N. destruct (level_shape k w p s W N) as (x & -> & B). unfold g_insertion_token, p_rule. cbn [app]. rewrite ws_space. destruct (starts_opens _ (proj1 (B s))) as [_ E]. rewrite E. apply tok_none. intros r. rewrite E. apply starts_next, B.
Qed.
Lemma level_no_az k p w s : level_at k w p s -> w <> [] -> p_opt g_az (w ++ s) = Some (None, w ++ s).
Proof.
  intros W N. destruct (level_shape k w p s W N) as (x & -> & B). apply opt_no. unfold g_az. cbn [app]. rewrite rule_space by reflexivity. apply starts_conjunction, B.
Qed.
Lemma az_article_reads p w s : level_at 1 w p s -> w <> [] -> mild s -> exists g, g_az_article total (w ++ s) = Some (g, s) /\ says_list 1 p [g].
Proof.
  intros W N M. destruct (article_reads p w s W N M) as (g & G & Y). exists g. split; [|exact Y]. unfold g_az_article. now rewrite (bind_yes _ _ _ _ _ (level_no_az _ _ _ s W N)).
Qed.
Lemma next_no_article k p w s : level_at k w p s -> w <> [] -> g_az_article total (next ++ w ++ s) = None.
Proof.
  intros W N. unfold g_az_article. assert (A : exists x, p_opt g_az (next ++ w ++ s) = Some (x, u8 "következő" ++ w ++ s)) by (eexists; reflexivity). destruct A as (x & A).
  rewrite (bind_yes _ _ _ _ _ A). apply (proj2 (next_partless k p w s W N) PArticle).
Qed.
Lemma next_no_article_and k p w s : level_at k w p s -> w <> [] -> g_article_and_paragraph total (g_az_article total) (next ++ w ++ s) = None.
Proof. intros W N. apply bind_no. now apply (next_no_article k p). Qed.
Lemma opt_paragraph p w s : level_at 2 w p s -> mild s -> (w = [] -> g_paragraph_reference total s = None) ->
  exists o, p_opt (one_part (g_paragraph_reference total)) (w ++ s) = Some (o, s) /\ says_list 2 p (parts_of o).
Proof.
  intros W M Z. destruct (listed_nonempty w) as [->|N].
  - apply listed_empty in W as ->. exists None. split; [apply opt_no; apply (map_no (fun x => [x])); now apply Z|left; auto].
  - destruct (paragraph_reads p w s W N M) as (g & G & Y). exists (Some [g]). split; [|exact Y]. apply opt_yes. now apply (map_yes (fun x => [x])).
Qed.
Lemma article_and_paragraph p w q v s f : level_at 1 w p (v ++ s) -> w <> [] -> level_at 2 v q s -> mild s -> (v = [] -> g_paragraph_reference total s = None) ->
  (f = g_article_reference total \/ f = g_az_article total) ->
  exists l l', g_article_and_paragraph total f (w ++ v ++ s) = Some (l ++ l', s) /\ says_list 1 p l /\ says_list 2 q l'.
Proof.
  intros W N V M Z F. assert (M' : mild (v ++ s)) by (destruct (listed_nonempty v) as [->|V']; [exact M|eapply level_mild; [eassumption|exact V']]). destruct (opt_paragraph q v s V M Z) as (o & O & Y).
  assert (A : exists g, f (w ++ v ++ s) = Some (g, v ++ s) /\ says_list 1 p [g]) by (destruct F as [->| ->]; [now apply article_reads|now apply az_article_reads]). destruct A as (g & G & Yg).
  exists [g], (parts_of o). split; [|auto]. unfold g_article_and_paragraph. now rewrite (bind_yes _ _ _ _ _ G), (bind_yes _ _ _ _ _ O).
Qed.

(** * Insertions *)

Definition blind {A} (p : parser A) : Prop := forall s, p (ws s) = p s.
Lemma blind_rule {A} (p : parser A) : blind (p_rule p). Proof. intros s. unfold p_rule. now rewrite ws_idem. Qed.
Lemma blind_tok w : blind (p_tok w). Proof. intros s. unfold p_tok. now rewrite ws_idem. Qed.
Lemma blind_bind {A B} (p : parser A) (f : A -> parser B) : blind p -> blind (p_bind p f). Proof. intros H s. unfold p_bind. now rewrite H. Qed.
Lemma blind_map {A B} (f : A -> B) p : blind p -> blind (p_map f p). Proof. apply blind_bind. Qed.
Lemma blind_or {A} (p q : parser A) : blind p -> blind q -> blind (p <|> q). Proof. intros H K s. unfold p_or. now rewrite H, K. Qed.
Lemma blind_opt {A B} (p : parser A) (f : option A -> parser B) : blind p -> (forall x, blind (f x)) -> blind (p_bind (p_opt p) f).
Proof. intros H K s. unfold p_bind, p_opt. rewrite H. destruct (p s) as [[x r]|]; [reflexivity|apply K]. Qed.
Lemma blind_part t : blind (part_parser t). Proof. intros s. apply part_rule_ws. Qed.
Lemma blind_az_article : blind (g_az_article total). Proof. apply blind_opt; [apply blind_rule|]. intros _. apply (blind_part PArticle). Qed.
Definition insertion_parts : parser (list g_part) :=
      (g_insertion_token ;~ g_article_and_paragraph total (g_article_reference total))
  <|> (a <~ p_opt (one_part (g_az_article total) <|> p_map (fun _ => []) (p_tok (u8 "a §"))) ;;
       g_insertion_token ;~ x <~ g_paragraph_reference total ;; p_ret (parts_of a ++ [x]))
  <|> (a <~ p_opt (g_article_and_paragraph total (g_az_article total) <|> p_map (fun _ => []) (p_tok (u8 "a §"))
                   <|> p_map (fun _ => []) (p_tok (u8 "a bekezdés"))) ;;
       g_insertion_token ;~ x <~ g_any_point total ;; p_ret (parts_of a ++ [x]))
  <|> (a <~ g_article_and_paragraph total (g_az_article total) ;; x <~ g_any_point total ;; g_insertion_token ;~
       y <~ g_any_subpoint total ;; p_ret (a ++ [x; y])).
Lemma blind_insertion : blind insertion_parts.
Proof.
  unfold insertion_parts, g_article_and_paragraph, one_part. repeat first [apply blind_or|apply blind_rule|apply blind_opt; [|intros]|apply blind_az_article|apply blind_tok|apply blind_map|apply blind_bind].
Qed.
Lemma insertion_levels act k i out s : insertion_written act k i out -> pos_of total (i ++ s) = k ->
  exists a p q r, cites 1 [a; p; q; r] (no_parts act) (k + 1) (k + size i) out /\
  ((exists w v, i = next ++ w ++ v /\ level_at 1 w a (v ++ s) /\ w <> [] /\ level_at 2 v p s /\ q = [] /\ r = []) \/
   (exists w v, i = w ++ next ++ v /\ level_at 1 w a (next ++ v ++ s) /\ level_at 2 v p s /\ v <> [] /\ q = [] /\ r = []) \/
   (exists w v z, i = w ++ v ++ next ++ z /\ level_at 1 w a (v ++ next ++ z ++ s) /\ level_at 2 v p (next ++ z ++ s) /\ (w = [] -> v = []) /\ level_at 3 z q s /\ z <> [] /\ r = []) \/
   exists w v z x, i = w ++ v ++ z ++ next ++ x /\ level_at 1 w a (v ++ z ++ next ++ x ++ s) /\ w <> [] /\ level_at 2 v p (z ++ next ++ x ++ s) /\ level_at 3 z q (next ++ x ++ s) /\ z <> [] /\ level_at 4 x r s /\ x <> []).
Proof.
  intros W K. destruct W as [w v a p out i -> W N V C|w v a p out i -> W V N C|w v z a p q out i -> W V D Z N C|w v z x a p q r out i -> W NW V Z NZ X NX C];
    rewrite <- !app_assoc in K; (eexists; eexists; eexists; eexists; split; [exact C|]).
  - left. exists w, v. split; [reflexivity|]. split; [|split; [exact N|]]; [eapply level_place; [exact W|]|split; [eapply level_place; [exact V|]|auto]]; rewrite !pos_app, ?size_app in *; lia.
  - right; left. exists w, v. split; [reflexivity|]. split; [|split]; [eapply level_place; [exact W|]|eapply level_place; [exact V|]|auto]; rewrite !pos_app, ?size_app in *; lia.
  - right; right; left. exists w, v, z. split; [reflexivity|]. split; [|split; [|split; [exact D|split]]]; [eapply level_place; [exact W|]|eapply level_place; [exact V|]|eapply level_place; [exact Z|]|auto]; rewrite !pos_app, ?size_app in *; lia.
  - right; right; right. exists w, v, z, x. split; [reflexivity|]. split; [|split; [exact NW|split; [|split; [|split; [exact NZ|split]]]]]; [eapply level_place; [exact W|]|eapply level_place; [exact V|]|eapply level_place; [exact Z|]|eapply level_place; [exact X|]|auto]; rewrite !pos_app, ?size_app in *; lia.
Qed.
Lemma insertion_parts_read act k i out s : insertion_written act k i out -> pos_of total (i ++ s) = k -> silent s ->
  exists l0 l1 l2 l3 a p q r, insertion_parts (i ++ s) = Some (l0 ++ l1 ++ l2 ++ l3, s) /\ says_list 1 a l0 /\ says_list 2 p l1 /\ says_list 3 q l2 /\ says_list 4 r l3 /\
    cites 1 [a; p; q; r] (no_parts act) (k + 1) (k + size i) out.
Proof.
  intros I K S. destruct (insertion_levels act k i out s I K) as (a & p & q & r & C & H). enough (E : exists l0 l1 l2 l3, insertion_parts (i ++ s) = Some (l0 ++ l1 ++ l2 ++ l3, s) /\ says_list 1 a l0 /\ says_list 2 p l1 /\ says_list 3 q l2 /\ says_list 4 r l3).
  { destruct E as (l0 & l1 & l2 & l3 & E & Y0 & Y1 & Y2 & Y3). exists l0, l1, l2, l3, a, p, q, r. auto 10. }
  clear I K C. pose proof (silent_mild s S) as M. assert (NP : g_paragraph_reference total s = None) by apply (proj1 S PParagraph). unfold insertion_parts.
  destruct H as [(w & v & -> & W & N & V & -> & ->)|[(w & v & -> & W & V & N & -> & ->)|[(w & v & z & -> & W & V & D & Z & N & ->)|(w & v & z & x & -> & W & NW & V & Z & NZ & X & NX)]]]; rewrite <- !app_assoc.
  - destruct (article_and_paragraph a w p v s _ W N V M (fun _ => NP) (or_introl eq_refl)) as (l & l' & G & Y & Y'). exists l, l', [], []. rewrite !app_nil_r. split; [|split; [exact Y|split; [exact Y'|split; now left]]].
    do 3 apply or_yes. rewrite (bind_yes _ _ _ _ _ (next_yes 1 a w (v ++ s) W N)). exact G.
  - destruct (paragraph_reads p v s V N M) as (g & G & Y). destruct (listed_nonempty w) as [->|NW].
    + apply listed_empty in W as ->. exists [], [g], [], []. split; [|split; [now left|split; [exact Y|split; now left]]]. cbn [app]. do 2 apply or_yes. rewrite or_no.
      * rewrite (bind_yes _ _ _ None (next ++ v ++ s)); [|apply opt_no; rewrite or_no; [reflexivity|]; apply (map_no (fun x => [x])); now apply (next_no_article 2 p)].
        rewrite (bind_yes _ _ _ _ _ (next_yes 2 p v s V N)), (bind_yes _ _ _ _ _ G). reflexivity.
      * rewrite (bind_yes _ _ _ _ _ (next_yes 2 p v s V N)). apply bind_no. apply (article_passed 2 p v s); [lia|exact V|exact N].
    + destruct (az_article_reads a w (next ++ v ++ s) W NW (next_mild _)) as (g' & G' & Y'). exists [g'], [g], [], []. split; [|split; [exact Y'|split; [exact Y|split; now left]]]. do 2 apply or_yes. rewrite or_no; [|now apply bind_no, (level_no_next 1 a)].
      rewrite (bind_yes _ _ _ (Some [g']) (next ++ v ++ s)); [|apply opt_yes, or_yes; now apply (map_yes (fun x => [x]))].
      rewrite (bind_yes _ _ _ _ _ (next_yes 2 p v s V N)), (bind_yes _ _ _ _ _ G). reflexivity.
  - destruct (any_point_reads q z s Z N M) as (g & G & Y). destruct (listed_nonempty w) as [->|NW].
    + specialize (D eq_refl). subst v. apply listed_empty in W as ->. apply listed_empty in V as ->. exists [], [], [g], []. split; [|split; [now left|split; [now left|split; [exact Y|now left]]]]. cbn [app]. apply or_yes. rewrite or_no; [|rewrite or_no].
      * rewrite (bind_yes _ _ _ None (next ++ z ++ s)); [|apply opt_no; rewrite or_no; [reflexivity|]; rewrite or_no; [reflexivity|]; now apply (next_no_article_and 3 q)].
        rewrite (bind_yes _ _ _ _ _ (next_yes 3 q z s Z N)), (bind_yes _ _ _ _ _ G). reflexivity.
      * rewrite (bind_yes _ _ _ None (next ++ z ++ s)); [|apply opt_no; rewrite or_no; [reflexivity|]; apply (map_no (fun x => [x])); now apply (next_no_article 3 q)].
        rewrite (bind_yes _ _ _ _ _ (next_yes 3 q z s Z N)). apply bind_no. apply (paragraph_passed 3 q z s); [lia|exact Z|exact N].
      * rewrite (bind_yes _ _ _ _ _ (next_yes 3 q z s Z N)). apply bind_no. apply (article_passed 3 q z s); [lia|exact Z|exact N].
    + destruct (article_and_paragraph a w p v (next ++ z ++ s) _ W NW V (next_mild _) (fun _ => proj1 (next_partless 3 q z s Z N) PParagraph) (or_intror eq_refl)) as (l & l' & G' & Y1 & Y2).
      assert (M' : mild (v ++ next ++ z ++ s)) by (destruct (listed_nonempty v) as [->|V']; [apply next_mild|eapply level_mild; [eassumption|exact V']]).
      destruct (az_article_reads a w (v ++ next ++ z ++ s) W NW M') as (g' & G2 & _).
      exists l, l', [g], []. split; [|split; [exact Y1|split; [exact Y2|split; [exact Y|now left]]]]. apply or_yes. rewrite or_no; [|rewrite or_no; [|now apply bind_no, (level_no_next 1 a)]].
      * rewrite (bind_yes _ _ _ (Some (l ++ l')) (next ++ z ++ s)); [|now apply opt_yes, or_yes, or_yes].
        rewrite (bind_yes _ _ _ _ _ (next_yes 3 q z s Z N)), (bind_yes _ _ _ _ _ G). cbn [parts_of p_ret]. now rewrite <- app_assoc.
      * rewrite (bind_yes _ _ _ (Some [g']) (v ++ next ++ z ++ s)); [|apply opt_yes, or_yes; now apply (map_yes (fun x => [x]))].
        destruct (listed_nonempty v) as [->|NV]; [|now apply bind_no, (level_no_next 2 p)]. cbn [app].
        rewrite (bind_yes _ _ _ _ _ (next_yes 3 q z s Z N)). apply bind_no. apply (paragraph_passed 3 q z s); [lia|exact Z|exact N].
  - destruct (any_subpoint_reads r x s X NX M) as (g & G & Y). destruct (any_point_reads q z (next ++ x ++ s) Z NZ (next_mild _)) as (h & H & Yh).
    assert (M' : mild (v ++ z ++ next ++ x ++ s)) by (destruct (listed_nonempty v) as [->|V']; [exact (level_mild _ _ _ _ _ Z NZ)|exact (level_mild _ _ _ _ _ V V')]).
    destruct (article_and_paragraph a w p v (z ++ next ++ x ++ s) _ W NW V (level_mild _ _ _ _ _ Z NZ) (fun _ => paragraph_passed 3 q z _ _ (le_n _) Z NZ) (or_intror eq_refl)) as (l & l' & G' & Y1 & Y2).
    destruct (az_article_reads a w (v ++ z ++ next ++ x ++ s) W NW M') as (g' & G2 & _).
    exists l, l', [h], [g]. split; [|auto]. rewrite or_no; [|rewrite or_no; [|rewrite or_no; [|now apply bind_no, (level_no_next 1 a)]]].
    + rewrite (bind_yes _ _ _ _ _ G'), (bind_yes _ _ _ _ _ H), (bind_yes _ _ _ _ _ (next_yes 4 r x s X NX)), (bind_yes _ _ _ _ _ G). cbn [p_ret]. now rewrite <- app_assoc.
    + rewrite (bind_yes _ _ _ (Some (l ++ l')) (z ++ next ++ x ++ s)); [|now apply opt_yes, or_yes, or_yes]. now apply bind_no, (level_no_next 3 q).
    + rewrite (bind_yes _ _ _ (Some [g']) (v ++ z ++ next ++ x ++ s)); [|apply opt_yes, or_yes; now apply (map_yes (fun x => [x]))].
      destruct (listed_nonempty v) as [->|NV]; [cbn [app]; now apply bind_no, (level_no_next 3 q)|now apply bind_no, (level_no_next 2 p)].
Qed.
Lemma insertion_head act k i out s : insertion_written act k i out -> pos_of total (i ++ s) = k -> exists c j, i = 32%N :: c :: j /\ isspace_chr c = false.
Proof.
  assert (L : forall k p w s j, level_at k w p s -> w <> [] -> exists c z, w ++ j = 32%N :: c :: z /\ isspace_chr c = false).
  { intros k' p w s0 j W N. destruct (level_shape k' w p s0 W N) as (x & -> & B). destruct (B j) as [B' _]. destruct (starts_opens _ B') as [_ E]. cbn [app]. destruct (x ++ j) as [|c z]; [inversion B'; match goal with H : digits ?n |- _ => destruct (digits_head n H) as (? & ? & -> & _) end; discriminate|].
    exists c, z. split; [reflexivity|]. destruct (isspace_chr c) eqn:C; [|reflexivity]. exfalso. unfold ws in E. cbn [drop_while] in E. rewrite C in E. apply (f_equal (@length _)) in E. pose proof (ws_length z) as H. unfold ws in H. cbn [length] in E. lia. }
  assert (K : forall j, exists c z, next ++ j = 32%N :: c :: z /\ isspace_chr c = false) by (intros j; eexists; eexists; split; reflexivity).
  intros I P. destruct (insertion_levels act k i out s I P) as (a & p & q & r & _ & H).
  destruct H as [(w & v & -> & _)|[(w & v & -> & W & _)|[(w & v & z & -> & W & _ & D & _)|(w & v & z & x & -> & W & NW & _)]]]; [apply K| | |eapply L; [exact W|exact NW]];
    (destruct (listed_nonempty w) as [->|NW]; [|eapply L; [exact W|exact NW]]); [apply K|]. rewrite (D eq_refl). apply K.
Qed.
Lemma insertion_reads act k i out s : insertion_written act k i out -> pos_of total (i ++ s) = k -> silent s ->
  exists g, g_insertion_reference total (i ++ s) = Some (g, s) /\ convert_single_in_text_reference act g = Ok out.
Proof.
  intros W K S. destruct (insertion_parts_read act k i out s W K S) as (l0 & l1 & l2 & l3 & a & p & q & r & G & Y0 & Y1 & Y2 & Y3 & CI). destruct (insertion_head act k i out s W K) as (c & j & -> & C).
  exists (mk_greference (l0 ++ l1 ++ l2 ++ l3) (pos_of total (ws ((32%N :: c :: j) ++ s)), pos_of total s)). split.
  - unfold g_insertion_reference, reference_of. fold insertion_parts. apply (map_yes (fun x => mk_greference (fst x) (snd x)) _ _ (l0 ++ l1 ++ l2 ++ l3, _)). apply span_yes. now rewrite blind_insertion.
  - apply (list_converts act l0 l1 l2 l3 a p q r); auto. replace (pos_of total (ws ((32%N :: c :: j) ++ s))) with (k + 1); [replace (pos_of total s) with (k + size (32%N :: c :: j)); [exact CI|]|].
    + rewrite pos_app in K. lia.
    + cbn [app] in *. rewrite ws_space, ws_solid_head by exact C. unfold pos_of in *. cbn [length] in *. lia.
Qed.
End Total.
